(* Specification: the three forms of a statement, sent to a database with many tables (Meaning.v, Changes.v). *)
From Verif Require Export Literal Changes.

(* The database takes the literal of a value for that value; a statement with a prefix or suffix, which it
   answers as it likes, with literals as with arguments. *)
Definition tables_take_literals (g : basis) (e : bool) : Prop :=
  (forall v u, literal_says e v = Some (MVal u) -> benter g u = benter g v)
  /\ (forall v, literal_says e v = Some MNull -> benter g v = bnull g)
  /\ (forall q q' v, query_rel e q q' -> bother g q v = bother g q' v).

(* A text with what comes beside it. With (numbered args) this is Meaning.answer, Changes.send_update and so on. *)
Section Told.
  Context {g : basis} (db : tabledb g) (E : env) (text : string).
  Definition told_select : option (list (list (bdatum g))) :=
    match read_query E text with Some q => Some (means q db nothing) | None => None end.
  Definition told_delete : option (list (list (bdatum g)) * tabledb g) :=
    match read_delete E text with Some b => bdelete db b | None => None end.
  Definition told_update : option (list (list (bdatum g)) * tabledb g) :=
    match read_update E text with Some b => bupdate db b | None => None end.
  Definition told_insert (k : rules g) : option (list (list (bdatum g)) * tabledb g) :=
    match read_insert E text with Some b => binsert k db b | None => None end.
End Told.
