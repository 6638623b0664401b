(* Proofs for C49 to C54: whole statements, with their comment. *)
From Verif Require Export GrammarBodyP.

Lemma comment_tokens : forall A c, forallb (fun a => negb (newline a)) (list_ascii_of_string c) = true ->
  tokens_from A L0 ("; -- " ++ c) = Some ([KSemi], LComment).
Proof.
  intros A c H.
  assert (G : tokens_from A LComment c = Some ([], LComment)).
  { induction c as [|a c IH]; [reflexivity|]. cbn [list_ascii_of_string forallb] in H.
    apply andb_true_iff in H. destruct H as [Ha H]. apply negb_true_iff in Ha.
    cbn [tokens_from]. unfold advance. rewrite Ha. rewrite IH by exact H. reflexivity. }
  rewrite tokens_app. cbn. rewrite G. reflexivity.
Qed.

Section Reads.
  Context {O : Oracle} {sty : style}.

  (* A statement q whose tokens are ts, followed by a comment. *)
  Lemma tokens_comment : forall t ts c, tx false t ts ->
    forallb (fun a => negb (newline a)) (list_ascii_of_string c) = true ->
    exists q, flat (t +++ write_comment c) = Ok q /\ spellable q = true
      /\ tokens (env_of (args q)) (fill spelled 1 q) = Some (ts ++ if no_str c then [] else [KSemi])%list.
  Proof.
    intros t ts c (q & F & R & L) H. unfold write_comment. destruct (no_str c) eqn:E; cbn [negb when].
    - exists q. rewrite cat_eps_r. split; [exact F|]. split; [exact R|].
      destruct (L [] []) as (x & st & y & H1 & H2 & -> & _).
      cbn [app length] in H1, H2. rewrite app_nil_r in H1, H2. unfold tokens. rewrite H1, H2, app_nil_r. reflexivity.
    - exists (q ++ lit ("; -- " ++ c))%list. split; [apply flat_ok; [exact F|apply flat_w]|].
      split; [apply spellable_app; [exact R|unfold spellable; rewrite args_lit; destruct sty; reflexivity]|].
      rewrite args_app, args_lit, app_nil_r, fill_app, fill_lit.
      destruct (L [] []) as (x & st & y & H1 & H2 & -> & H4). cbn [app length] in H1, H2. rewrite app_nil_r in H1, H2.
      unfold tokens. rewrite tokens_app, H1.
      rewrite (ender_tokens _ st ("; -- " ++ c) [KSemi] LComment y H2 H4 eq_refl (comment_tokens _ _ H)).
      cbn [flush]. rewrite app_nil_r, app_assoc. reflexivity.
  Qed.

  (* x is read from the text of the statement, whatever the form of the text. *)
  Definition stmt_reads {A} (rd : env -> string -> option A) (s : stmt) (x : A) : Prop :=
    exists q, template s = Ok q /\ spellable q = true /\ rd (env_of (args q)) (fill spelled 1 q) = Some x.

  Lemma whole_reads : forall A (p : nat -> parser A) s x t ts c,
    write_stmt s = t +++ write_comment c -> tx false t ts ->
    forallb (fun a => negb (newline a)) (list_ascii_of_string c) = true ->
    (forall n T, length ts <= n -> stop T = true -> p n (ts ++ T)%list = Some (x, T)) ->
    stmt_reads (whole (fun ts => p (length ts) ts)) s x.
  Proof.
    intros A p s x t ts c E T H G. destruct (tokens_comment _ _ _ T H) as (q & F & R & Tk).
    exists q. split; [unfold template; rewrite E; exact F|]. split; [exact R|].
    unfold whole. rewrite Tk, app_length. rewrite G; [|lia|destruct (no_str c); reflexivity].
    destruct (no_str c); reflexivity.
  Qed.

  Lemma select_reads : forall s b, sel_says s b -> q_items b <> [] ->
    stmt_reads read_query (StSelect s) (Query b).
  Proof.
    intros s b H N. pose proof (proj2 (proj2 (proj2 (proj2 (proj2 calls_back)))) s b H) as B.
    destruct (core_reads s b B N) as (Ne & ts & T & (Nt & G) & _).
    apply (whole_reads _ p_query _ _ (core s) ts (s_comment s)); [|exact T|apply (sb_comment _ _ B)|exact G].
    cbn [write_stmt]. apply write_core, Ne.
  Qed.
End Reads.

(* The three forms of the text. *)
Lemma reads_number {O : Oracle} : forall A (rd : env -> string -> option A) s x, stmt_reads (sty := ByNumber) rd s x ->
  exists text values, query s = Ok (text, values) /\ rd (numbered values) text = Some x.
Proof.
  intros A rd s x (q & E & _ & R). exists (fill dollar 1 q), (args q). rewrite query_template, E. split; [reflexivity|exact R].
Qed.
Lemma reads_name {O : Oracle} : forall A (rd : env -> string -> option A) s x, stmt_reads (sty := ByName) rd s x ->
  exists text values, named_query s = Ok (text, values) /\ rd (named values) text = Some x.
Proof.
  intros A rd s x (q & E & _ & R). eexists _, _. rewrite named_query_template, E. split; [reflexivity|exact R].
Qed.
Lemma reads_literals {O : Oracle} : forall A (rd : env -> string -> option A) s x e, stmt_reads (sty := Literals e) rd s x ->
  exists text, to_string s = Ok text /\ rd (no_args e) text = Some x.
Proof.
  intros A rd s x e (q & E & P & R). exists (fill (fun _ => literal) 1 q).
  pose proof (to_string_template s q E) as T. cbn in P. rewrite P in T. split; [exact T|exact R].
Qed.
