(* C55: the programs of /repo/examples send the statements that their comments show, whatever
   records they are given. *)
From Verif Require Import AssignP Sort.
From Verif Require Import GrammarDml Programs.

(* The comments show names without quotes. *)
Fixpoint unquoted (s : string) : string :=
  match s with
  | EmptyString => EmptyString
  | String a s' => if Ascii.eqb a dquote then unquoted s' else String a (unquoted s')
  end.

(* NamedQuery() gives the text shown in named/ with these arguments, Query() the text shown in
   standard/ with the same values in the same order; both are read as b. *)
Definition sends {O : Oracle} {B} (s : stmt) (named_text text : string) (args : list (string * gval))
  (rd : env -> string -> option B) (b : B) : Prop :=
  exists x y, named_query s = Ok (x, args) /\ unquoted x = named_text /\ rd (named args) x = Some b
    /\ query s = Ok (y, map snd args) /\ unquoted y = text /\ rd (numbered (map snd args)) y = Some b.

Definition plain_table (x : string) : tableref := {| tb_only := false; tb_name := [x]; tb_alias := [] |}.
Definition column_item (x : string) : item := ItName [x] [].
Definition now_call : term := MCall "NOW" [].

(* sort.Slice orders distinct columns without aliases in one way. *)
Lemma sort_distinct : forall {O : Oracle} l, sort_contract o_sort -> unaliased l -> NoDup l ->
  o_sort l = insertion_sort l.
Proof.
  intros O l C U N. pose proof (C l) as [P _]. pose proof (insertion_contract l) as [P' _].
  apply by_name_unique.
  - apply sorted_by_name; assumption.
  - apply sorted_by_name; [exact insertion_contract|assumption..].
  - exact (unaliased_perm _ _ P U).
  - exact (unaliased_perm _ _ P' U).
  - intro c. split; intro H.
    + apply (Permutation_in _ P'), (Permutation_in _ (Permutation_sym P)), H.
    + apply (Permutation_in _ P), (Permutation_in _ (Permutation_sym P')), H.
Qed.

Ltac sends_rest := split; [vm_compute; reflexivity|]; split; [vm_compute; reflexivity|];
  split; [vm_compute; reflexivity|]; split; [vm_compute; reflexivity|]; split; vm_compute; reflexivity.
Ltac sends_now := eexists _, _; sends_rest.

(* examples/named/comment.go:31-37, standard/comment.go:32-38 *)
Theorem C55_find_comments {O : Oracle} : exists s, find_comments = Ok s
  /\ sends (StSelect s)
       "SELECT comments.id, comments.email, comments.status, comments.user_id, comments.message, comments.created_at FROM comments INNER JOIN users ON comments.user_id = users.id WHERE (comments.deleted_at IS NULL)"
       "SELECT comments.id, comments.email, comments.status, comments.user_id, comments.message, comments.created_at FROM comments INNER JOIN users ON comments.user_id = users.id WHERE (comments.deleted_at IS NULL)"
       []
       read_query (Query {|
         q_prefix := []; q_with := []; q_distinct_on := []; q_distinct := false;
         q_items := map (fun x => ItName ["comments"; x] [])
                        ["id"; "email"; "status"; "user_id"; "message"; "created_at"];
         q_from := [plain_table "comments"];
         q_joins := [(["INNER"; "JOIN"], plain_table "users",
                      FCmp (MName ["comments"; "user_id"]) "=" (MName ["users"; "id"]))];
         q_where := Some (FCmp (MName ["comments"; "deleted_at"]) "IS" MNull);
         q_group_by := []; q_having := None; q_order_by := []; q_limit := None; q_offset := None;
         q_suffix := [] |}).
Proof. eexists. split; [vm_compute; reflexivity|]. sends_now. Qed.
Print Assumptions C55_find_comments.

(* examples/named/comment.go:68-74, standard/comment.go:81-87 *)
Theorem C55_find_staff_comments {O : Oracle} : exists s, find_staff_comments = Ok s
  /\ sends (StSelect s)
       "SELECT id, email, status, user_id, message, created_at FROM comments WHERE ((deleted_at IS NULL) AND (user_id IN (SELECT id FROM users WHERE (is_staff = :arg_1))))"
       "SELECT id, email, status, user_id, message, created_at FROM comments WHERE ((deleted_at IS NULL) AND (user_id IN (SELECT id FROM users WHERE (is_staff = $1))))"
       [("arg_1", GBool true)]
       read_query (Query {|
         q_prefix := []; q_with := []; q_distinct_on := []; q_distinct := false;
         q_items := map column_item ["id"; "email"; "status"; "user_id"; "message"; "created_at"];
         q_from := [plain_table "comments"]; q_joins := [];
         q_where := Some (FAnd (FCmp (MName ["deleted_at"]) "IS" MNull)
                               (FInSub false (MName ["user_id"]) (Query {|
           q_prefix := []; q_with := []; q_distinct_on := []; q_distinct := false;
           q_items := [column_item "id"]; q_from := [plain_table "users"]; q_joins := [];
           q_where := Some (FCmp (MName ["is_staff"]) "=" (MVal (GBool true)));
           q_group_by := []; q_having := None; q_order_by := []; q_limit := None; q_offset := None;
           q_suffix := [] |})));
         q_group_by := []; q_having := None; q_order_by := []; q_limit := None; q_offset := None;
         q_suffix := [] |}).
Proof. eexists. split; [vm_compute; reflexivity|]. sends_now. Qed.
Print Assumptions C55_find_staff_comments.

(* examples/named/user.go:25-29, standard/user.go:26-30 *)
Theorem C55_find_users {O : Oracle} : exists s, find_users = Ok s
  /\ sends (StSelect s)
       "SELECT id, first_name, last_name, email FROM users WHERE (deleted_at IS NULL)"
       "SELECT id, first_name, last_name, email FROM users WHERE (deleted_at IS NULL)"
       []
       read_query (Query {|
         q_prefix := []; q_with := []; q_distinct_on := []; q_distinct := false;
         q_items := map column_item ["id"; "first_name"; "last_name"; "email"];
         q_from := [plain_table "users"]; q_joins := [];
         q_where := Some (FCmp (MName ["deleted_at"]) "IS" MNull);
         q_group_by := []; q_having := None; q_order_by := []; q_limit := None; q_offset := None;
         q_suffix := [] |}).
Proof. eexists. split; [vm_compute; reflexivity|]. sends_now. Qed.
Print Assumptions C55_find_users.

(* examples/named/user.go:52-56, standard/user.go:62-66 *)
Theorem C55_delete_user {O : Oracle} : forall u, exists d, delete_user u = Ok d
  /\ sends (StDelete d)
       "DELETE FROM users WHERE (id = :arg_1)"
       "DELETE FROM users WHERE (id = $1)"
       [("arg_1", GInt KInt64 (us_id u))]
       read_delete {|
         de_from := [plain_table "users"]; de_using := [];
         de_where := Some (FCmp (MName ["id"]) "=" (MVal (GInt KInt64 (us_id u))));
         de_returning := [] |}.
Proof. intro u. eexists. split; [vm_compute; reflexivity|]. sends_now. Qed.
Print Assumptions C55_delete_user.

Ltac distinct := repeat (constructor; [cbn; intuition discriminate|]); constructor.

(* examples/named/comment.go:104-112, standard/comment.go:129-137 *)
Theorem C55_create_comment {O : Oracle} : forall c, sort_contract o_sort -> exists i, create_comment c = Ok i
  /\ sends (StInsert i)
       "INSERT INTO comments (created_at, email, message, status, user_id) VALUES (NOW(), :arg_1, :arg_2, :arg_3, :arg_4) RETURNING id"
       "INSERT INTO comments (created_at, email, message, status, user_id) VALUES (NOW(), $1, $2, $3, $4) RETURNING id"
       [("arg_1", GStr (cm_email c)); ("arg_2", GStr (cm_message c)); ("arg_3", GStr "waiting");
        ("arg_4", GInt KInt64 (cm_user_id c))]
       read_insert {|
         in_table := plain_table "comments";
         in_columns := map (fun x => [x]) ["created_at"; "email"; "message"; "status"; "user_id"];
         in_rows := [[now_call; MVal (GStr (cm_email c)); MVal (GStr (cm_message c));
                      MVal (GStr "waiting"); MVal (GInt KInt64 (cm_user_id c))]];
         in_conflict := None;
         in_returning := [column_item "id"] |}.
Proof.
  intros c C.
  pose proof (sort_distinct (map lk_column ["email"; "status"; "message"; "user_id"; "created_at"]) C) as S.
  specialize (S ltac:(repeat constructor) ltac:(distinct)).
  cbv -[o_sort] in S. eexists. split.
  { unfold create_comment, lk_insert. cbn [ins_step i_into new_insert zero_table t_name no_str to_into bind].
    unfold ins_run. cbn [fold_res]. unfold ins_step at 1. cbn [i_columns ins_with_into nonempty i_values cond_empty is_nil bind].
    match goal with |- context [to_set ?l] => let x := eval vm_compute in (to_set l) in change (to_set l) with x end.
    cbn [bind]. unfold pairs_values. cbn [p_mode p_cols]. rewrite S. vm_compute. reflexivity. }
  sends_now.
Qed.
Print Assumptions C55_create_comment.

(* README.md:71-79 shows the same statement for a program that does not set user_id: its
   statement has no such column. *)
Theorem C55_readme_create_comment_refuted {O : Oracle} : forall c, sort_contract o_sort ->
  exists i, readme_create_comment c = Ok i
  /\ sends (StInsert i)
       "INSERT INTO comments (created_at, email, message, status) VALUES (NOW(), :arg_1, :arg_2, :arg_3) RETURNING id"
       "INSERT INTO comments (created_at, email, message, status) VALUES (NOW(), $1, $2, $3) RETURNING id"
       [("arg_1", GStr (cm_email c)); ("arg_2", GStr (cm_message c)); ("arg_3", GStr "waiting")]
       read_insert {|
         in_table := plain_table "comments";
         in_columns := map (fun x => [x]) ["created_at"; "email"; "message"; "status"];
         in_rows := [[now_call; MVal (GStr (cm_email c)); MVal (GStr (cm_message c));
                      MVal (GStr "waiting")]];
         in_conflict := None;
         in_returning := [column_item "id"] |}.
Proof.
  intros c C.
  pose proof (sort_distinct (map lk_column ["email"; "status"; "message"; "created_at"]) C) as S.
  specialize (S ltac:(repeat constructor) ltac:(distinct)).
  cbv -[o_sort] in S. eexists. split.
  { unfold readme_create_comment, lk_insert. cbn [ins_step i_into new_insert zero_table t_name no_str to_into bind].
    unfold ins_run. cbn [fold_res]. unfold ins_step at 1. cbn [i_columns ins_with_into nonempty i_values cond_empty is_nil bind].
    match goal with |- context [to_set ?l] => let x := eval vm_compute in (to_set l) in change (to_set l) with x end.
    cbn [bind]. unfold pairs_values. cbn [p_mode p_cols]. rewrite S. vm_compute. reflexivity. }
  sends_now.
Qed.
Print Assumptions C55_readme_create_comment_refuted.

(* examples/named/comment.go:147-160, standard/comment.go:175-187 *)
Theorem C55_upsert_comment {O : Oracle} : forall c, sort_contract o_sort -> exists i, upsert_comment c = Ok i
  /\ sends (StInsert i)
       "INSERT INTO comments (created_at, email, message, status, user_id) VALUES (NOW(), :arg_1, :arg_2, :arg_3, :arg_4) ON CONFLICT (email) DO UPDATE SET created_at = NOW(), deleted_at = NULL, message = :arg_5, status = :arg_6, user_id = :arg_7 RETURNING id, created_at"
       "INSERT INTO comments (created_at, email, message, status, user_id) VALUES (NOW(), $1, $2, $3, $4) ON CONFLICT (email) DO UPDATE SET created_at = NOW(), deleted_at = NULL, message = $5, status = $6, user_id = $7 RETURNING id, created_at"
       [("arg_1", GStr (cm_email c)); ("arg_2", GStr (cm_message c)); ("arg_3", GStr "waiting");
        ("arg_4", GInt KInt64 (cm_user_id c)); ("arg_5", GStr (cm_message c)); ("arg_6", GStr "waiting");
        ("arg_7", GInt KInt64 (cm_user_id c))]
       read_insert {|
         in_table := plain_table "comments";
         in_columns := map (fun x => [x]) ["created_at"; "email"; "message"; "status"; "user_id"];
         in_rows := [[now_call; MVal (GStr (cm_email c)); MVal (GStr (cm_message c));
                      MVal (GStr "waiting"); MVal (GInt KInt64 (cm_user_id c))]];
         in_conflict := Some ([["email"]], DoUpdate
           [(["created_at"], now_call); (["deleted_at"], MNull); (["message"], MVal (GStr (cm_message c)));
            (["status"], MVal (GStr "waiting")); (["user_id"], MVal (GInt KInt64 (cm_user_id c)))]);
         in_returning := [column_item "id"; column_item "created_at"] |}.
Proof.
  intros c C.
  pose proof (sort_distinct (map lk_column ["email"; "status"; "message"; "user_id"; "created_at"]) C) as S.
  specialize (S ltac:(repeat constructor) ltac:(distinct)).
  pose proof (sort_distinct (map lk_column ["message"; "user_id"; "status"; "created_at"; "deleted_at"]) C) as S'.
  specialize (S' ltac:(repeat constructor) ltac:(distinct)).
  cbv -[o_sort] in S, S'. eexists. split.
  { unfold upsert_comment, lk_insert. cbn [ins_step i_into new_insert zero_table t_name no_str to_into bind].
    unfold ins_run. cbn [fold_res]. unfold ins_step at 1. cbn [i_columns ins_with_into nonempty i_values cond_empty is_nil bind].
    match goal with |- context [to_set ?l] => let x := eval vm_compute in (to_set l) in change (to_set l) with x end.
    cbn [bind]. unfold pairs_values. cbn [p_mode p_cols]. rewrite S. vm_compute. reflexivity. }
  match goal with |- sends (StInsert ?i) _ _ _ _ _ => eassert (T : write_stmt (StInsert i) = Ok _) end.
  { unfold write_stmt, write_insert. cbn [i_conflict_action i_conflict_target conflict_empty action_empty pairs_empty p_mode p_map p_exprs
      nonempty negb andb when i_into t_name no_str i_columns i_values i_returning i_comment].
    unfold write_conflict, write_action, write_set, write_pairs, pairs_values.
    cbn [p_mode pairs_empty p_map p_exprs action_empty nonempty negb andb p_cols]. rewrite S'. vm_compute. reflexivity. }
  eexists _, _. unfold named_query, query. rewrite T. sends_rest.
Qed.
Print Assumptions C55_upsert_comment.

(* examples/named/news.go:28-34, standard/news.go:29-35 *)
Theorem C55_publish_news {O : Oracle} : forall n, sort_contract o_sort -> exists u, publish_news n = Ok u
  /\ sends (StUpdate u)
       "UPDATE news SET published_at = NOW(), status = :arg_1 WHERE ((id = :arg_2) AND (deleted_at IS NULL)) RETURNING published_at"
       "UPDATE news SET published_at = NOW(), status = $1 WHERE ((id = $2) AND (deleted_at IS NULL)) RETURNING published_at"
       [("arg_1", GStr "published"); ("arg_2", GInt KInt64 (nw_id n))]
       read_update {|
         up_with := []; up_table := plain_table "news";
         up_set := SetEach [(["published_at"], now_call); (["status"], MVal (GStr "published"))];
         up_from := [];
         up_where := Some (FAnd (FCmp (MName ["id"]) "=" (MVal (GInt KInt64 (nw_id n))))
                                (FCmp (MName ["deleted_at"]) "IS" MNull));
         up_returning := [column_item "published_at"] |}.
Proof.
  intros n C.
  pose proof (sort_distinct (map lk_column ["published_at"; "status"]) C) as S.
  specialize (S ltac:(repeat constructor) ltac:(distinct)).
  cbv -[o_sort] in S. eexists. split; [vm_compute; reflexivity|].
  match goal with |- sends (StUpdate ?u) _ _ _ _ _ => eassert (T : write_stmt (StUpdate u) = Ok _) end.
  { unfold write_stmt, write_update, write_set, write_pairs, pairs_values.
    cbn [u_set p_mode pairs_empty p_map p_exprs nonempty negb andb p_cols]. rewrite S. vm_compute. reflexivity. }
  eexists _, _. unfold named_query, query. rewrite T. sends_rest.
Qed.
Print Assumptions C55_publish_news.

(* The hypothesis holds of the sort of Sort.v; a comment with a message that looks like SQL. *)
Example C55_create_comment_ex : sort_contract (o_sort (Oracle := go_oracle))
  /\ exists i, create_comment (O := go_oracle)
       {| cm_email := "a@b.c"; cm_message := "x'); DROP TABLE comments; --"; cm_user_id := 7 |} = Ok i
     /\ query (O := go_oracle) (StInsert i) = Ok
       ("INSERT INTO ""comments"" (""created_at"", ""email"", ""message"", ""status"", ""user_id"") VALUES (NOW(), $1, $2, $3, $4) RETURNING ""id""",
        [GStr "a@b.c"; GStr "x'); DROP TABLE comments; --"; GStr "waiting"; GInt KInt64 7]).
Proof.
  split; [exact insertion_contract|]. eexists.
  split; [vm_compute; reflexivity|]. vm_compute. reflexivity.
Qed.
