(* The programs of /repo/examples (named/ and standard/ build the same statements; named/ sends
   them with NamedQuery, standard/ with Query), as functions of the records that they are given,
   up to the call of NamedQuery or Query. What the database answers is not modelled. *)
From Verif Require Export Api Build Write.

(* examples/named/comment.go:10-18, standard/comment.go:11-19: the fields that a statement uses *)
Record comment := { cm_email : string; cm_message : string; cm_user_id : Z }.
(* examples/named/news.go:10-15 *)
Record news := { nw_id : Z }.
(* examples/named/user.go:10-17 *)
Record user := { us_id : Z }.

(* A Go string or int64 passed as interface{}. *)
Definition str (s : string) : gval := GStr s.
Definition i64 (z : Z) : gval := GInt KInt64 z.
(* lk.Raw("NOW()"), loukoum.go:104-106 *)
Definition now : gval := GExpr (ERaw "NOW()").

Section Programs.
  Context {O : Oracle}.

  (* examples/named/comment.go:22-29, standard/comment.go:23-30 *)
  Definition find_comments : res select :=
    do q <- lk_select (map str ["comments.id"; "comments.email"; "comments.status";
                                "comments.user_id"; "comments.message"; "comments.created_at"]);
    do c <- is_null (lk_condition (GStr "comments.deleted_at")) true;
    sel_run q [SelFrom [GStr "comments"];
               SelJoin [GTable (lk_table "users"); GExpr (lk_on "comments.user_id" "users.id")];
               SelWhere c].

  (* examples/named/comment.go:57-66, standard/comment.go:70-79 *)
  Definition staff : res select :=
    do q <- lk_select [GStr "id"];
    do c <- cmp_expr (lk_condition (GStr "is_staff")) OpEqual (GBool true);
    sel_run q [SelFrom [GStr "users"]; SelWhere c].
  Definition find_staff_comments : res select :=
    do q <- lk_select (map str ["id"; "email"; "status"; "user_id"; "message"; "created_at"]);
    do c <- is_null (lk_condition (GStr "deleted_at")) true;
    do s <- staff;
    do d <- expr_in (lk_condition (GStr "user_id")) [g_select s];
    sel_run q [SelFrom [GStr "comments"]; SelWhere c; SelWhere d].

  (* examples/named/comment.go:94-102, standard/comment.go:119-127 *)
  Definition create_comment (c : comment) : res insert :=
    do i <- lk_insert (GStr "comments");
    ins_run i [
      InsSet [GPair (GStr "email") (str (cm_email c)); GPair (GStr "status") (str "waiting");
              GPair (GStr "message") (str (cm_message c)); GPair (GStr "user_id") (i64 (cm_user_id c));
              GPair (GStr "created_at") now];
      InsReturning [GStr "id"]].

  (* README.md:62-69: as create_comment, without the pair of user_id *)
  Definition readme_create_comment (c : comment) : res insert :=
    do i <- lk_insert (GStr "comments");
    ins_run i [
      InsSet [GPair (GStr "email") (str (cm_email c)); GPair (GStr "status") (str "waiting");
              GPair (GStr "message") (str (cm_message c)); GPair (GStr "created_at") now];
      InsReturning [GStr "id"]].

  (* examples/named/comment.go:130-145, standard/comment.go:158-173 *)
  Definition upsert_comment (c : comment) : res insert :=
    do i <- lk_insert (GStr "comments");
    do a <- lk_do_update [
      GPair (GStr "message") (str (cm_message c)); GPair (GStr "user_id") (i64 (cm_user_id c));
      GPair (GStr "status") (str "waiting"); GPair (GStr "created_at") now;
      GPair (GStr "deleted_at") GNil];
    ins_run i [
      InsSet [GPair (GStr "email") (str (cm_email c)); GPair (GStr "status") (str "waiting");
              GPair (GStr "message") (str (cm_message c)); GPair (GStr "user_id") (i64 (cm_user_id c));
              GPair (GStr "created_at") now];
      InsOnConflict [GStr "email"; a];
      InsReturning [GStr "id, created_at"]].

  (* examples/named/news.go:19-26, standard/news.go:20-27 *)
  Definition publish_news (n : news) : res update :=
    do u <- lk_update (GStr "news");
    do c <- cmp_expr (lk_condition (GStr "id")) OpEqual (i64 (nw_id n));
    do d <- is_null (lk_condition (GStr "deleted_at")) true;
    upd_run u [
      UpdSet [GPair (GStr "published_at") now; GPair (GStr "status") (str "published")];
      UpdWhere c; UpdAnd d; UpdReturning [GStr "published_at"]].

  (* examples/named/user.go:21-23, standard/user.go:22-24 *)
  Definition find_users : res select :=
    do q <- lk_select (map str ["id"; "first_name"; "last_name"; "email"]);
    do c <- is_null (lk_condition (GStr "deleted_at")) true;
    sel_run q [SelFrom [GStr "users"]; SelWhere c].

  (* examples/named/user.go:49-50, standard/user.go:59-60 *)
  Definition delete_user (u : user) : res delete :=
    do d <- lk_delete (GStr "users");
    do c <- cmp_expr (lk_condition (GStr "id")) OpEqual (i64 (us_id u));
    del_run d [DelWhere c].
End Programs.
