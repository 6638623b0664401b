(* Specification: a database that gets texts, one after the other, and finds out by itself what kind
   of statement each of them is. *)
From Verif Require Export LiteralTables.

Inductive reading :=
| ReadSelect (q : squery)
| ReadDelete (b : dbody)
| ReadUpdate (b : ubody)
| ReadInsert (b : ibody).

(* The text is read by the first of the four readers that takes it; no text is taken by two of them
   (C70_one_kind), so the order does not matter. *)
Definition read_any (E : env) (text : string) : option reading :=
  match read_query E text, read_delete E text, read_update E text, read_insert E text with
  | Some q, _, _, _ => Some (ReadSelect q)
  | None, Some b, _, _ => Some (ReadDelete b)
  | None, None, Some b, _ => Some (ReadUpdate b)
  | None, None, None, Some b => Some (ReadInsert b)
  | None, None, None, None => None
  end.

Section Session.
  Context {g : basis} (k : rules g).

  (* What a statement does: the rows that it gives, and the tables after it; None if the database refuses it. *)
  Definition act (db : tabledb g) (r : reading) : option (list (list (bdatum g)) * tabledb g) :=
    match r with
    | ReadSelect q => Some (means q db nothing, db)
    | ReadDelete b => bdelete db b
    | ReadUpdate b => bupdate db b
    | ReadInsert b => binsert k db b
    end.

  (* The statements of a session, one after the other; one that is refused leaves the tables as they are. *)
  Fixpoint follow (db : tabledb g) (rs : list reading) : list (option (list (list (bdatum g)))) * tabledb g :=
    match rs with
    | [] => ([], db)
    | r :: rs' =>
      match act db r with
      | Some (out, db') => let (l, last) := follow db' rs' in (Some out :: l, last)
      | None => let (l, last) := follow db rs' in (None :: l, last)
      end
    end.

  (* The same from texts, each with what comes beside it. *)
  Definition obey (db : tabledb g) (m : env * string) : option (list (list (bdatum g)) * tabledb g) :=
    match read_any (fst m) (snd m) with Some r => act db r | None => None end.
  Fixpoint session (db : tabledb g) (ms : list (env * string)) : list (option (list (list (bdatum g)))) * tabledb g :=
    match ms with
    | [] => ([], db)
    | m :: ms' =>
      match obey db m with
      | Some (out, db') => let (l, last) := session db' ms' in (Some out :: l, last)
      | None => let (l, last) := session db ms' in (None :: l, last)
      end
    end.
End Session.

(* The three ways to send a statement; e: does the server read backslashes in literals as escapes? *)
Inductive form := ByQuery | ByNamedQuery | ByString.
Definition sent_as {O : Oracle} (e : bool) (f : form) (st : stmt) (m : env * string) : Prop :=
  match f with
  | ByQuery => exists text values, query st = Ok (text, values) /\ m = (numbered values, text)
  | ByNamedQuery => exists text values, named_query st = Ok (text, values) /\ m = (named values, text)
  | ByString => exists text, to_string st = Ok text /\ m = (no_args e, text)
  end.

(* What the calls that made a statement say (C49-C52, C54). *)
Definition described_as {O : Oracle} {m : view} (st : stmt) (r : reading) : Prop :=
  match st, r with
  | StSelect s, ReadSelect (Query b) => sel_says s b /\ q_items b <> []
  | StDelete d, ReadDelete b => del_says d b
  | StUpdate u, ReadUpdate b => upd_says u b /\ assigns_something (up_set b)
  | StInsert i, ReadInsert b => ins_says i b
  | _, _ => False
  end.
