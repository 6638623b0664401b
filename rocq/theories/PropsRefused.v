(* C43: what the panic of an argument that cannot be converted says. *)
From Verif Require Import ConvP ClausesP Sort PropsConv PropsOperands.

(* What a call takes for each role: the text of the name it is given, if the argument is of a
   type that the call takes at all. *)
Inductive role := Column | Table | Into | Suffix | Prefix.

Definition text_for (r : role) (g : gval) : option string :=
  match r, g with
  | Column, GStr s => Some (trim_space s)
  | Column, GColumn c => Some (c_name c)
  | (Table | Into), GStr s => Some (t_name (lk_table s))
  | (Table | Into), GTable t => Some (t_name t)
  | Into, GInto t => Some (t_name t)
  | (Suffix | Prefix), GStr s => Some s
  | Suffix, GSuffix s => Some s
  | Prefix, GPrefix s => Some s
  | _, _ => None
  end.

Definition role_words (r : role) : string :=
  match r with
  | Column => "column" | Table => "table" | Into => "into clause" | Suffix => "suffix" | Prefix => "prefix"
  end.

(* The panic of an argument: of a wrong type, or empty. *)
Definition complaint (r : role) (g : gval) : option panic :=
  match text_for r g with
  | None => Some (PCannotUse (role_words r))
  | Some "" => Some (PMsg ("loukoum: given " ++ role_words r ++ " is undefined"))
  | Some _ => None
  end.

(* The outcome of a call, as seen by its caller: the panic, if any. *)
Definition panic_of {A} (x : res A) : option panic := match x with Ok _ => None | Panic p => Some p end.

Lemma trim_space_name : forall s, c_name (lk_column (trim_space s)) = trim_space s.
Proof. reflexivity. Qed.

Lemma to_column_says : forall g, panic_of (to_column g) = complaint Column g.
Proof.
  intros []; try reflexivity; cbn; unfold complaint; cbn [text_for].
  - destruct (trim_space s); reflexivity.
  - destruct (c_name c); reflexivity.
Qed.
Lemma to_table_says : forall g, panic_of (to_table g) = complaint Table g.
Proof. intros []; try reflexivity; cbn; unfold complaint; cbn; [destruct s|destruct (t_name t)]; reflexivity. Qed.
Lemma to_into_says : forall g, panic_of (to_into g) = complaint Into g.
Proof. intros []; try reflexivity; cbn; unfold complaint; cbn; [destruct s| |]; try destruct (t_name t); reflexivity. Qed.
Lemma to_suffix_says : forall g, panic_of (to_suffix g) = complaint Suffix g.
Proof. intros []; try reflexivity; cbn; unfold complaint; cbn; destruct s; reflexivity. Qed.
Lemma to_prefix_says : forall g, panic_of (to_prefix g) = complaint Prefix g.
Proof. intros []; try reflexivity; cbn; unfold complaint; cbn; destruct s; reflexivity. Qed.

(* A list of arguments is refused for its first argument that is. *)
Fixpoint first_complaint (r : role) (l : list gval) : option panic :=
  match l with
  | [] => None
  | g :: rest => match complaint r g with Some p => Some p | None => first_complaint r rest end
  end.

(* The columns in a list of arguments: a []string or []Column given alone stands for its
   elements, and a string stands for its parts between commas. *)
Definition parts (g : gval) : list gval := match g with GStr s => map GStr (split_on "," s) | _ => [g] end.
Definition spread (args : list gval) : list gval :=
  match args with [GColumns l] => map GColumn l | [GStrs l] => map GStr l | _ => args end.
Definition named_columns (args : list gval) : list gval := flat_map parts (spread args).

Lemma panic_bind : forall A B (x : res A) (k : A -> res B), (forall a, panic_of (k a) = None) -> panic_of (do a <- x; k a) = panic_of x.
Proof. intros A B [a|p] k H; [apply H|reflexivity]. Qed.

Lemma map_res_length : forall A B (f : A -> res B) l m, map_res f l = Ok m -> length m = length l.
Proof.
  intros A B f l. induction l as [|a l IH]; intros m E; [injection E as <-; reflexivity|]. cbn [map_res] in E.
  destruct (f a); [|discriminate E]. cbn [bind] in E. destruct (map_res f l) as [k|]; [|discriminate E].
  injection E as <-. cbn. rewrite (IH k eq_refl). reflexivity.
Qed.

Lemma map_res_says : forall A B (f : A -> res B) r (v : A -> gval) l, (forall a, panic_of (f a) = complaint r (v a)) ->
  panic_of (map_res f l) = first_complaint r (map v l).
Proof.
  intros A B f r v l H. induction l as [|a l IH]; [reflexivity|]. cbn [map_res map first_complaint].
  rewrite <- H, <- IH. destruct (f a); [|reflexivity]. cbn [bind panic_of]. destruct (map_res f l); reflexivity.
Qed.

Lemma first_complaint_app : forall r a b, first_complaint r (a ++ b) = match first_complaint r a with Some p => Some p | None => first_complaint r b end.
Proof. intros r a b. induction a as [|g a IH]; [reflexivity|]. cbn. destruct (complaint r g); [reflexivity|exact IH]. Qed.

Lemma split_columns_says : forall s, panic_of (split_columns s) = first_complaint Column (map GStr (split_on "," s)).
Proof. intro s. unfold split_columns. apply map_res_says. intro a. rewrite <- to_column_says. reflexivity. Qed.

Lemma concat_says : forall A r (f : gval -> res (list A)) (v : gval -> list gval) l, (forall g, panic_of (f g) = first_complaint r (v g)) ->
  panic_of (concat_res (map f l)) = first_complaint r (flat_map v l).
Proof.
  intros A r f v l H. unfold concat_res. rewrite panic_bind by reflexivity.
  induction l as [|g l IH]; [reflexivity|]. cbn [map map_res flat_map]. rewrite first_complaint_app, <- H, <- IH.
  destruct (f g); [|reflexivity]. cbn [bind panic_of]. destruct (map_res _ (map f l)); reflexivity.
Qed.

Lemma to_columns1_says : forall g, panic_of (to_columns1 g) = first_complaint Column (parts g).
Proof.
  intros []; try reflexivity; [apply split_columns_says|]. cbn [to_columns1]. rewrite panic_bind by reflexivity.
  cbn. unfold complaint, check_column. cbn. destruct (c_name c); reflexivity.
Qed.

Lemma to_columns_says : forall args, panic_of (to_columns args) = first_complaint Column (named_columns args).
Proof.
  intro args. unfold to_columns, named_columns.
  assert (C : forall l, panic_of (map_res check_column l) = first_complaint Column (flat_map parts (map GColumn l : list gval))).
  { intro l. replace (flat_map parts (map GColumn l : list gval)) with (map GColumn l : list gval).
    2:{ induction l as [|c l IH]; [reflexivity|]. cbn. rewrite <- IH. reflexivity. }
    apply map_res_says. intro c. unfold check_column, complaint. cbn. destruct (c_name c); reflexivity. }
  assert (S : forall l, panic_of (concat_res (map (fun s => to_columns1 (GStr s)) l)) = first_complaint Column (flat_map parts (map GStr l : list gval))).
  { intro l. rewrite <- (map_map GStr to_columns1). apply concat_says, to_columns1_says. }
  assert (G : panic_of (concat_res (map to_columns1 args)) = first_complaint Column (flat_map parts args)) by apply concat_says, to_columns1_says.
  destruct args as [|[] []]; solve [apply C|apply S|apply G].
Qed.

Lemma concat_count : forall A (f : gval -> res (list A)) (v : gval -> list gval) l m, (forall g k, f g = Ok k -> length k = length (v g)) ->
  concat_res (map f l) = Ok m -> length m = length (flat_map v l).
Proof.
  intros A f v l m H. unfold concat_res. intro E. destruct (map_res (fun x => x) (map f l)) as [ls|] eqn:M; [|discriminate E].
  injection E as <-. revert ls M. induction l as [|g l IH]; intros ls M; [injection M as <-; reflexivity|].
  cbn [map map_res] in M. destruct (f g) as [k|] eqn:G; [|discriminate M]. cbn [bind] in M.
  destruct (map_res (fun x => x) (map f l)) as [ks|]; [|discriminate M]. injection M as <-.
  cbn [concat flat_map]. rewrite !app_length, (IH ks eq_refl), (H g k G). reflexivity.
Qed.

Lemma to_columns1_count : forall g k, to_columns1 g = Ok k -> length k = length (parts g).
Proof.
  intros g cols E. destruct g; try discriminate E.
  - cbn [to_columns1 parts] in *. unfold split_columns in E. rewrite map_length. exact (map_res_length _ _ _ _ _ E).
  - cbn [to_columns1] in E. destruct (check_column c); [|discriminate E]. injection E as <-. reflexivity.
Qed.

Lemma to_columns_count : forall args cols, to_columns args = Ok cols -> length cols = length (named_columns args).
Proof.
  intros args cols. unfold to_columns, named_columns.
  assert (C : forall l, map_res check_column l = Ok cols -> length cols = length (flat_map parts (map GColumn l : list gval))).
  { intros l E. rewrite (map_res_length _ _ _ _ _ E). clear. induction l as [|c l IH]; [reflexivity|]. cbn. rewrite IH. reflexivity. }
  assert (S : forall l, concat_res (map (fun s => to_columns1 (GStr s)) l) = Ok cols -> length cols = length (flat_map parts (map GStr l : list gval))).
  { intros l E. rewrite <- (map_map GStr to_columns1) in E. exact (concat_count _ _ _ _ _ to_columns1_count E). }
  assert (G : concat_res (map to_columns1 args) = Ok cols -> length cols = length (flat_map parts args)) by apply concat_count, to_columns1_count.
  destruct args as [|[] []]; solve [apply C|apply S|apply G].
Qed.

(* Insert(x), Into, Update(x), Suffix and Prefix panic exactly for an argument of a wrong type or
   without text, and say which. The builder has no such clause yet; C19 is about the ones that do. *)
Theorem C43_refused {O : Oracle} : forall g,
  panic_of (lk_insert g) = complaint Into g
  /\ (forall i, t_name (i_into i) = "" -> panic_of (ins_step i (InsInto g)) = complaint Into g)
  /\ panic_of (lk_update g) = complaint Table g
  /\ (forall q, s_offset q = 0%Z -> panic_of (sel_step q (SelSuffix g)) = complaint Suffix g)
  /\ (forall q, s_offset q = 0%Z -> panic_of (sel_step q (SelPrefix g)) = complaint Prefix g).
Proof.
  intro g. assert (I : forall i, t_name (i_into i) = "" -> panic_of (ins_step i (InsInto g)) = complaint Into g).
  { intros i E. cbn [ins_step]. rewrite E. change (no_str "") with true. cbv iota. rewrite panic_bind by reflexivity. apply to_into_says. }
  repeat split.
  - apply I. reflexivity.
  - exact I.
  - unfold lk_update. rewrite panic_bind by reflexivity. apply to_table_says.
  - intros q E. cbn [sel_step]. rewrite E. cbn [Z.eqb]. rewrite panic_bind by reflexivity. apply to_suffix_says.
  - intros q E. cbn [sel_step]. rewrite E. cbn [Z.eqb]. rewrite panic_bind by reflexivity. apply to_prefix_says.
Qed.
Print Assumptions C43_refused.

(* Columns, DistinctOn, GroupBy and Using of a list panic exactly for the first argument that is
   of a wrong type or without text. *)
Theorem C43_list_refused {O : Oracle} : forall args,
  (forall i, i_columns i = [] -> panic_of (ins_step i (InsColumns args)) = first_complaint Column (named_columns args))
  /\ (forall q, s_group_by q = [] -> named_columns args <> [] -> panic_of (sel_step q (SelGroupBy args)) = first_complaint Column (named_columns args))
  /\ (forall q, s_group_by q = [] -> named_columns args <> [] -> panic_of (sel_step q (SelDistinctOn args)) = first_complaint Column (named_columns args))
  /\ (forall d, d_using d = [] -> panic_of (del_step d (DelUsing args)) = first_complaint Table args).
Proof.
  intro args.
  assert (N : forall A (k : list column -> A) p, named_columns args <> [] ->
    panic_of (do cols <- to_columns args; if nonempty cols then Ok (k cols) else Panic p) = first_complaint Column (named_columns args)).
  { intros A k p N. rewrite <- to_columns_says. destruct (to_columns args) as [cols|] eqn:E; [|reflexivity]. cbn [bind panic_of].
    destruct cols; [|reflexivity]. apply to_columns_count in E. destruct (named_columns args); [congruence|discriminate E]. }
  repeat split.
  - intros i E. destruct args as [|a args]; [reflexivity|]. cbn [ins_step]. rewrite E. cbn [nonempty]. rewrite panic_bind by reflexivity. apply to_columns_says.
  - intros q E H. cbn [sel_step]. rewrite E. cbn [nonempty]. apply N, H.
  - intros q E H. cbn [sel_step]. rewrite E. cbn [nonempty]. apply N, H.
  - intros d E. cbn [del_step]. rewrite E. cbn [nonempty]. rewrite panic_bind by reflexivity. unfold to_tables.
    rewrite <- (map_id args) at 2. apply map_res_says, to_table_says.
Qed.
Print Assumptions C43_list_refused.

(* From of a Select and of a Delete, Delete(x) and From of an Update take strings, tables and Raw,
   and also a stmt.From, which is C43_from_refuted. *)
Definition from_kind (g : gval) : bool :=
  match g with GStr _ | GTable _ | GFrom _ | GExpr (ERaw _) => true | _ => false end.
Definition from_complaint (args : list gval) : option panic :=
  match args with
  | [] => Some (PMsg "loukoum: given from clause is undefined")
  | _ => if forallb from_kind args then None else Some (PCannotUse "from clause")
  end.

Lemma to_from_says : forall args, panic_of (to_from args) = from_complaint args.
Proof.
  intro args. unfold to_from, from_complaint.
  assert (M : panic_of (map_res to_fromitem args) = if forallb from_kind args then None else Some (PCannotUse "from clause")).
  { induction args as [|g args IH]; [reflexivity|]. cbn [map_res forallb].
    assert (G : panic_of (to_fromitem g) = if from_kind g then None else Some (PCannotUse "from clause")) by (destruct g; try reflexivity; destruct e; reflexivity).
    destruct (to_fromitem g) as [x|p], (from_kind g); cbn in G; try discriminate G.
    - cbn [andb bind]. rewrite <- IH. destruct (map_res to_fromitem args); reflexivity.
    - injection G as ->. reflexivity. }
  destruct (map_res to_fromitem args) as [l|p] eqn:E.
  - pose proof (map_res_length _ _ _ _ _ E) as L. cbn [bind panic_of] in *. destruct args, l; try discriminate L; [reflexivity|].
    cbn [nonempty panic_of]. destruct (forallb from_kind _); [reflexivity|discriminate M].
  - cbn [bind panic_of] in *. destruct args; [discriminate E|]. exact M.
Qed.

Theorem C43_from_refused : forall args,
  (forall q, s_from q = [] -> panic_of (sel_step q (SelFrom args)) = from_complaint args)
  /\ (forall d, d_from d = [] -> panic_of (del_step d (DelFrom args)) = from_complaint args)
  /\ (forall g, panic_of (lk_delete g) = from_complaint [g])
  /\ (forall u g, u_from u = [] -> panic_of (upd_step u (UpdFrom g)) = from_complaint [g]).
Proof.
  intro args. repeat split.
  - intros q E. cbn [sel_step]. rewrite E. cbn [nonempty]. rewrite panic_bind by reflexivity. apply to_from_says.
  - intros d E. cbn [del_step]. rewrite E. cbn [nonempty]. rewrite panic_bind by reflexivity. apply to_from_says.
  - intro g. unfold lk_delete. cbn [del_step new_delete d_from nonempty]. rewrite panic_bind by reflexivity. apply to_from_says.
  - intros u g E. cbn [upd_step]. rewrite E. cbn [nonempty]. rewrite panic_bind by reflexivity. apply to_from_says.
Qed.
Print Assumptions C43_from_refused.

(* Limit and Offset: what is not an integer that fits, and integers out of range. A stmt.Limit or
   stmt.Offset is taken as it is. *)
Theorem C43_number_refused : forall g q z, typed g -> int_value g = Some z -> (forall x, g <> GInt KUint x) ->
  (forall x, g <> GLimit x) -> (forall x, g <> GOffset x) ->
  (s_limit q = 0%Z ->
     panic_of (sel_step q (SelLimit g)) = if negb (int64_ok z) then Some (PCannotUse "limit")
                                          else if (z <=? 0)%Z then Some (PMsg "loukoum: limit must be a positive integer") else None)
  /\ (s_offset q = 0%Z ->
     panic_of (sel_step q (SelOffset g)) = if negb (int64_ok z) then Some (PCannotUse "offset")
                                           else if (z <? 0)%Z then Some (PMsg "loukoum: offset must be a non-negative integer") else None).
Proof.
  intros g q z T V NU NL NO.
  assert (C : to_int64 g = if int64_ok z then Some z else None).
  { destruct (int64_ok z) eqn:I; [apply to_int64_complete; assumption|]. destruct (to_int64 g) as [z'|] eqn:E; [|reflexivity].
    destruct (to_int64_spec g z' T E) as [V' I']. congruence. }
  split; intro E; cbn [sel_step]; rewrite E; cbn [Z.eqb]; rewrite panic_bind by reflexivity; unfold to_limit, to_offset; rewrite C;
    (destruct g; try solve [exfalso; eapply NL; reflexivity|exfalso; eapply NO; reflexivity]); destruct (int64_ok z); cbn [negb panic_of]; try reflexivity;
    (destruct (z <=? 0)%Z; destruct (z <? 0)%Z; reflexivity).
Qed.
Print Assumptions C43_number_refused.

(* Limit and Offset of anything that is no integer, and of a uint. *)
Theorem C43_no_number_refused : forall g q, typed g -> int_value g = None \/ (exists x, g = GInt KUint x) ->
  (s_limit q = 0%Z -> panic_of (sel_step q (SelLimit g)) = Some (PCannotUse "limit"))
  /\ (s_offset q = 0%Z -> panic_of (sel_step q (SelOffset g)) = Some (PCannotUse "offset")).
Proof.
  intros g q T H.
  assert (C : to_int64 g = None).
  { destruct H as [H|[x ->]]; [|reflexivity]. destruct (to_int64 g) as [z|] eqn:E; [|reflexivity].
    destruct (to_int64_spec g z T E) as [V _]. congruence. }
  split; intro E; cbn [sel_step]; rewrite E; cbn [Z.eqb]; rewrite panic_bind by reflexivity; unfold to_limit, to_offset; rewrite C;
    destruct g; try reflexivity; destruct H as [H|[x H]]; discriminate H.
Qed.
Print Assumptions C43_no_number_refused.

(* OnConflict takes columns and then an action; what follows the action is not looked at. *)
Fixpoint conflict_complaint (targets : bool) (args : list gval) : option panic :=
  match args with
  | [] => Some (PMsg "loukoum: on conflict clause requires an action")
  | GConflictNo :: _ => None
  | GConflictUpdate _ :: _ => if targets then None else Some (PMsg "loukoum: on conflict update clause requires at least one target")
  | (GStr _ | GColumn _) as g :: rest => match complaint Column g with Some p => Some p | None => conflict_complaint true rest end
  | _ :: _ => Some (PCannotUse "on conflict clause")
  end.

Lemma on_conflict_says : forall args target, panic_of (on_conflict_loop args target) = conflict_complaint (nonempty target) args.
Proof.
  intro args. induction args as [|g args IH]; intro target; [reflexivity|].
  assert (N : forall c : column, nonempty (target ++ [c])%list = true) by (intro c; destruct target; reflexivity).
  destruct g; try reflexivity; cbn [on_conflict_loop conflict_complaint].
  - rewrite <- to_column_says. destruct (to_column (GStr s)) as [c|]; [|reflexivity]. cbn [bind panic_of]. rewrite IH, N. reflexivity.
  - rewrite <- to_column_says. destruct (to_column (GColumn c)) as [c'|]; [|reflexivity]. cbn [bind panic_of]. rewrite IH, N. reflexivity.
  - destruct (nonempty target); reflexivity.
Qed.

Theorem C43_conflict_refused {O : Oracle} : forall i args, i_conflict_action i = None -> i_conflict_target i = [] ->
  panic_of (ins_step i (InsOnConflict args)) = match args with
                                               | [] => Some (PMsg "loukoum: on conflict clause requires arguments")
                                               | _ => conflict_complaint false args
                                               end.
Proof.
  intros i args A T. cbn [ins_step]. rewrite A, T. cbn [conflict_empty]. destruct args as [|g args]; [reflexivity|].
  rewrite panic_bind by reflexivity. apply on_conflict_says.
Qed.
Print Assumptions C43_conflict_refused.

(* The expressions of Select and Returning: a []string, a []Column or a list of expressions given
   alone, or strings, columns, aggregates, Raw, Exists and NotExists. *)
Definition expression_text (g : gval) : option string :=
  match g with
  | GStr s => Some (trim_space s)
  | GColumn c | GSel (SColumn c) => Some (c_name c)
  | GExpr (ERaw s) | GSel (SRaw s) => Some s
  | GSel (SAgg _ v _ _) => Some v
  | GExpr (EExists _ | ENotExists _) | GSel (SExists _ | SNotExists _) => Some "EXISTS"
  | _ => None
  end.
Definition expression_complaint (g : gval) : option panic :=
  match expression_text g with
  | None => Some (PCannotUse "column")
  | Some "" => Some (PMsg "loukoum: given column is undefined")
  | Some _ => None
  end.
Fixpoint first_of (l : list gval) : option panic :=
  match l with
  | [] => None
  | g :: rest => match expression_complaint g with Some p => Some p | None => first_of rest end
  end.
Definition expressions_complaint (args : list gval) : option panic :=
  match args with
  | [GSels _] | [GStrs _] => None
  | [GColumns l] => first_of (map GColumn l)
  | _ => first_of (flat_map parts args)
  end.

Lemma first_of_app : forall a b, first_of (a ++ b) = match first_of a with Some p => Some p | None => first_of b end.
Proof. intros a b. induction a as [|g a IH]; [reflexivity|]. cbn. destruct (expression_complaint g); [reflexivity|exact IH]. Qed.

Lemma columns_first : forall l, first_complaint Column (map GStr l) = first_of (map GStr l).
Proof. induction l as [|s l IH]; [reflexivity|]. cbn. rewrite IH. reflexivity. Qed.

Lemma to_selexprs1_says : forall g, panic_of (to_selexprs1 g) = first_of (parts g).
Proof.
  intro g. unfold to_selexprs1. destruct g; try reflexivity.
  - cbn [as_selexpr parts]. rewrite panic_bind by reflexivity. rewrite split_columns_says. apply columns_first.
  - destruct e; try reflexivity. cbn. unfold expression_complaint. cbn. destruct s; reflexivity.
  - cbn. unfold expression_complaint. cbn. destruct (c_name c); reflexivity.
  - destruct s as [|c|s|f v d a|x|x]; try reflexivity; cbn; unfold expression_complaint; cbn; [destruct (c_name c)|destruct s|destruct v]; reflexivity.
Qed.

Lemma to_selexprs_says : forall args, panic_of (to_selexprs args) = expressions_complaint args.
Proof.
  intro args.
  assert (G : panic_of (concat_res (map to_selexprs1 args)) = first_of (flat_map parts args)).
  { unfold concat_res. rewrite panic_bind by reflexivity. induction args as [|g args IH]; [reflexivity|].
    cbn [map map_res flat_map]. rewrite first_of_app, <- to_selexprs1_says, <- IH.
    destruct (to_selexprs1 g); [|reflexivity]. cbn [bind panic_of]. destruct (map_res _ (map to_selexprs1 args)); reflexivity. }
  assert (C : forall l, panic_of (map_res check_column l) = first_of (map GColumn l)).
  { clear. intro l. induction l as [|c l IH]; [reflexivity|]. cbn [map_res map first_of]. rewrite <- IH.
    unfold expression_complaint, check_column. cbn [expression_text]. destruct (c_name c); [reflexivity|].
    change (no_str (String a s)) with false. cbv iota. cbn [bind panic_of]. destruct (map_res _ l); reflexivity. }
  unfold to_selexprs, expressions_complaint.
  destruct args as [|[] []]; try exact G; try reflexivity. rewrite panic_bind by reflexivity. apply C.
Qed.

Theorem C43_columns_refused {O : Oracle} : forall args, args <> [] ->
  panic_of (lk_select args) = expressions_complaint args
  /\ (forall q, panic_of (sel_step q (SelColumns args)) = expressions_complaint args)
  /\ (forall i, i_returning i = [] -> panic_of (ins_step i (InsReturning args)) = expressions_complaint args)
  /\ (forall u, u_returning u = [] -> panic_of (upd_step u (UpdReturning args)) = expressions_complaint args)
  /\ (forall d, d_returning d = [] -> panic_of (del_step d (DelReturning args)) = expressions_complaint args).
Proof.
  intros args N.
  assert (S : forall q, panic_of (sel_step q (SelColumns args)) = expressions_complaint args).
  { intro q. cbn [sel_step]. rewrite panic_bind by reflexivity. destruct args; [congruence|]. apply to_selexprs_says. }
  split; [apply S|]. split; [exact S|]. repeat split.
  - intros i E. cbn [ins_step]. rewrite E. cbn [nonempty]. rewrite panic_bind by reflexivity. apply to_selexprs_says.
  - intros u E. cbn [upd_step]. rewrite E. cbn [nonempty]. rewrite panic_bind by reflexivity. apply to_selexprs_says.
  - intros d E. cbn [del_step]. rewrite E. cbn [nonempty]. rewrite panic_bind by reflexivity. apply to_selexprs_says.
Qed.
Print Assumptions C43_columns_refused.

(* Operands of conditions: anything that is neither a value nor SQL. *)
Theorem C43_operand_refused : forall x o v, unusable v = true -> v <> GTimePtr None ->
  cmp_expr (lk_condition (GStr x)) o v = Panic (PCannotUse "loukoum Expression").
Proof.
  intros x o v H N.
  assert (E : new_expression v = Panic (PCannotUse "loukoum Expression")).
  { unfold unusable in H. destruct v; cbn in H |- *; try discriminate H; try reflexivity.
    - destruct t; [discriminate H|congruence].
    - destruct k; try discriminate H; reflexivity.
    - destruct e as [e|]; [destruct e|]; try discriminate H; reflexivity.
    - destruct e; try discriminate H; reflexivity. }
  destruct o; unfold cmp_expr, infix_wrapped, infix_plain; cbn [cmp_wraps]; rewrite E; reflexivity.
Qed.
Print Assumptions C43_operand_refused.

(* Set: an argument that is no string, column, map or pair. *)
Definition pair_kind (g : gval) : bool :=
  match g with GStr _ | GColumn _ | GMapAny _ | GMap _ | GPair _ _ => true | _ => false end.
Theorem C43_set_refused {O : Oracle} : forall g rest, pair_kind g = false ->
  (forall u, upd_step u (UpdSet (g :: rest)) = Panic (PCannotUse "pair"))
  /\ (forall i, i_columns i = [] -> i_values i = ENil -> ins_step i (InsSet (g :: rest)) = Panic (PCannotUse "pair"))
  /\ lk_do_update (g :: rest) = Panic (PCannotUse "pair").
Proof.
  intros g rest H.
  assert (M : forall p, merge_arg p g = Panic (PCannotUse "pair")) by (intro p; destruct g; try discriminate H; reflexivity).
  repeat split.
  - intro u. cbn [upd_step]. unfold merge_set. cbn [fold_res]. rewrite M. reflexivity.
  - intros i C V. cbn [ins_step]. rewrite C, V. cbn [nonempty cond_empty bind]. unfold to_set, merge_set. cbn [fold_res]. rewrite M. reflexivity.
  - unfold lk_do_update, to_set, merge_set. cbn [fold_res]. rewrite M. reflexivity.
Qed.
Print Assumptions C43_set_refused.

(* Join: a wrong number of arguments, and arguments of a wrong type. *)
Definition table_kind (g : gval) : bool := match g with GStr _ | GTable _ => true | _ => false end.
Definition on_kind (g : gval) : bool := match g with GStr _ | GExpr (EOn _ _) | GExpr (EInfixOn _ _ _) => true | _ => false end.
Theorem C43_join_refused : forall q,
  (forall args, length args = 0%nat \/ (4 <= length args)%nat -> sel_step q (SelJoin args) = Panic (PMsg "loukoum: given join clause is invalid"))
  /\ (forall g, (forall s, g <> GStr s) -> (forall j, g <> GJoin j) -> sel_step q (SelJoin [g]) = Panic (PCannotUse "join clause"))
  /\ (forall t c more, (length more <= 1)%nat -> table_kind t = false ->
       sel_step q (SelJoin (t :: c :: more)) = Panic (PCannotUse "table argument for join clause"))
  /\ (forall t c more, (length more <= 1)%nat -> table_kind t = true -> on_kind c = false ->
       sel_step q (SelJoin (t :: c :: more)) = Panic (PCannotUse "condition for join clause")).
Proof.
  intro q. repeat split.
  - intros args H. destruct args as [|a [|b [|c [|d l]]]]; try reflexivity; cbn in H; lia.
  - intros g S J. destruct g; try reflexivity; [exfalso; eapply S; reflexivity|exfalso; eapply J; reflexivity].
  - intros t c more L K. assert (H : handle_join t c = Panic (PCannotUse "table argument for join clause")) by (destruct t; try discriminate K; reflexivity).
    destruct more as [|m [|n more]]; [| |cbn in L; lia]; cbn [sel_step sel_join]; rewrite H; reflexivity.
  - intros t c more L K N.
    assert (H : handle_join t c = Panic (PCannotUse "condition for join clause")).
    { unfold handle_join. destruct t; try discriminate K; cbn [bind]; destruct c; try discriminate N; try reflexivity; destruct e; try discriminate N; reflexivity. }
    destruct more as [|m [|n more]]; [| |cbn in L; lia]; cbn [sel_step sel_join]; rewrite H; reflexivity.
Qed.
Print Assumptions C43_join_refused.

(* Where and And of a Select without condition. *)
Theorem C43_condition_refused : forall q,
  sel_step q (SelWhere ENil) = Panic (PMsg "loukoum: condition must be not nil")
  /\ sel_step q (SelAnd ENil) = Panic (PMsg "loukoum: condition must be not nil").
Proof. intro q. split; reflexivity. Qed.
Print Assumptions C43_condition_refused.

Example C43_refused_ex :
  panic_of (lk_insert (O := go_oracle) (GInt KInt 3)) = Some (PCannotUse "into clause")
  /\ panic_of (lk_insert (O := go_oracle) (GStr "")) = Some (PMsg "loukoum: given into clause is undefined")
  /\ panic_of (lk_insert (O := go_oracle) (GStr "users")) = None
  /\ first_complaint Column (named_columns [GStr "id, ,name"; GBool true]) = Some (PMsg "loukoum: given column is undefined")
  /\ first_complaint Column (named_columns [GStr "id,name"; GBool true]) = Some (PCannotUse "column")
  /\ first_complaint Column (named_columns [GStr "id,name"; GColumn (lk_column "email")]) = None
  /\ conflict_complaint false [GStr "email"] = Some (PMsg "loukoum: on conflict clause requires an action")
  /\ conflict_complaint false [GStr "email"; GConflictNo] = None
  /\ expressions_complaint [GStr "id"; GSel (SAgg "COUNT" "" false "")] = Some (PMsg "loukoum: given column is undefined")
  /\ from_complaint [GStr "users"; GInt KInt 3] = Some (PCannotUse "from clause")
  /\ unusable (GTable (lk_table "users")) = true
  /\ cmp_expr (lk_condition (GStr "id")) OpEqual (GTable (lk_table "users")) = Panic (PCannotUse "loukoum Expression").
Proof. repeat split. Qed.
