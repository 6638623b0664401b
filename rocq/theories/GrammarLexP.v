(* Proofs for C49 to C54: the tokens of a rendered text, piece by piece. *)
From Verif Require Export GrammarApi RenderP NumeralsP CondP.
From Verif Require PropsText.

(* The three forms of a statement: Query(), NamedQuery() and String(). *)
Inductive style := ByNumber | ByName | Literals (escapes : bool).
Existing Class style.
Definition view_of {m : style} : view := match m with Literals e => Inline e | _ => Bound end.
#[export] Existing Instance view_of.

(* What the text of a statement is read with, and how its values are spelled. *)
Definition env_of {m : style} (vs : list gval) : env :=
  match m with
  | ByNumber => numbered vs
  | ByName => named (combine (names_from 1 (length vs)) vs)
  | Literals escapes => no_args escapes
  end.
Definition spelled {O : Oracle} {m : style} : nat -> gval -> string :=
  match m with ByNumber => dollar | ByName => colon | Literals _ => fun _ => literal end.
Definition spellable {O : Oracle} {m : style} (q : sql) : bool :=
  match m with Literals _ => forallb printable (args q) | _ => true end.

(* Characters that end any token except a comment. *)
Definition ender (a : ascii) : bool :=
  Ascii.eqb a " " || Ascii.eqb a ")" || Ascii.eqb a "," || Ascii.eqb a ";".

Definition ends_token (q : sql) : bool :=
  match q with [] => true | Ch a :: _ => ender a | Val _ :: _ => false end.

Lemma tokens_app : forall A st s t,
  tokens_from A st (s ++ t) =
  match tokens_from A st s with
  | Some (x, st1) => match tokens_from A st1 t with
                     | Some (y, st2) => Some ((x ++ y)%list, st2)
                     | None => None
                     end
  | None => None
  end.
Proof.
  intros A st s t. revert st. induction s as [|a s IH]; intro st; cbn [append tokens_from].
  - destruct (tokens_from A st t) as [[y st2]|]; reflexivity.
  - destruct (advance A st a) as [[x st1]|]; [|reflexivity]. rewrite IH.
    destruct (tokens_from A st1 s) as [[y st2]|]; [|reflexivity].
    destruct (tokens_from A st2 t) as [[z st3]|]; [|reflexivity]. rewrite app_assoc. reflexivity.
Qed.

Lemma ender_cases : forall a, ender a = true ->
  a = " "%char \/ a = ")"%char \/ a = ","%char \/ a = ";"%char.
Proof.
  intros a H. unfold ender in H. rewrite !orb_true_iff, !Ascii.eqb_eq in H. tauto.
Qed.

Lemma ender_cut : forall A st a y, ender a = true -> flush A st = Some y -> st <> LComment ->
  advance A st a = match start a with Some (z, st1) => Some ((y ++ z)%list, st1) | None => None end.
Proof.
  intros A st a y H F N. destruct (ender_cases a H) as [-> | [-> | [-> | ->]]];
    (destruct st as [|s|n|[n|]|s|s|done s|done s|done|s|s|s| |]; try congruence; try discriminate;
     unfold advance, cut; cbn -[flush]; rewrite ?F; try reflexivity;
     cbn in F; injection F as <-; reflexivity).
Qed.

Lemma ender_tokens : forall A st s x st1 y, flush A st = Some y -> st <> LComment ->
  match s with String a _ => ender a = true | EmptyString => False end ->
  tokens_from A L0 s = Some (x, st1) -> tokens_from A st s = Some ((y ++ x)%list, st1).
Proof.
  intros A st [|a s] x st1 y F N H E; [destruct H|]. cbn [tokens_from] in *.
  rewrite (ender_cut _ _ _ _ H F N). change (advance A L0 a) with (start a) in E.
  destruct (start a) as [[z st2]|]; [|discriminate].
  destruct (tokens_from A st2 s) as [[u st3]|]; [|discriminate]. injection E as <- <-.
  rewrite app_assoc. reflexivity.
Qed.

Section Lexes.
Context {O : Oracle} {m : style}.

(* The text of the template q has the tokens ts. sharp: the last token is finished, so that
   any text can follow; otherwise only an ender can. *)
Definition lexes (sharp : bool) (q : sql) (ts : list lexeme) : Prop :=
  spellable q = true /\ forall pre post, exists x st y,
    tokens_from (env_of (pre ++ args q ++ post)) L0 (fill spelled (S (length pre)) q) = Some (x, st)
    /\ flush (env_of (pre ++ args q ++ post)) st = Some y /\ ts = (x ++ y)%list
    /\ (if sharp then st = L0 else st <> LComment).

Lemma spellable_app : forall a b, spellable a = true -> spellable b = true -> spellable (a ++ b)%list = true.
Proof.
  intros a b Ha Hb. unfold spellable in *. destruct m; try reflexivity. rewrite args_app, forallb_app, Ha, Hb.
  reflexivity.
Qed.

Lemma lexes_nil : lexes true [] [].
Proof. split; [unfold spellable; destruct m; reflexivity|]. intros pre post. exists [], L0, []. repeat split. Qed.

Lemma lexes_soft : forall h q ts, lexes h q ts -> lexes false q ts.
Proof.
  intros h q ts [R H]. split; [exact R|]. intros pre post. destruct (H pre post) as (x & st & y & H1 & H2 & H3 & H4).
  exists x, st, y. repeat split; try assumption. destruct h; [subst; discriminate|exact H4].
Qed.

Lemma place_args : forall (pre a b post : list gval),
  (pre ++ (a ++ b) ++ post = pre ++ a ++ (b ++ post))%list
  /\ (pre ++ (a ++ b) ++ post = (pre ++ a) ++ b ++ post)%list.
Proof. intros. rewrite !app_assoc. split; reflexivity. Qed.

Lemma fill_head : forall k q, q <> [] -> ends_token q = true ->
  match fill spelled k q with String a _ => ender a = true | EmptyString => False end.
Proof. intros k [|[a|v] q] N H; [congruence| |discriminate]. exact H. Qed.

Lemma fill_place : forall pre q r,
  fill spelled (S (length pre)) (q ++ r)%list
  = fill spelled (S (length pre)) q ++ fill spelled (S (length (pre ++ args q)%list)) r.
Proof. intros. rewrite fill_app, app_length. reflexivity. Qed.

(* After a finished token anything can follow. *)
Lemma lexes_sharp_app : forall h a b ta tb, lexes true a ta -> lexes h b tb -> lexes h (a ++ b)%list (ta ++ tb)%list.
Proof.
  intros h a b ta tb [Ra Ha] [Rb Hb]. split; [apply spellable_app; assumption|]. intros pre post. rewrite args_app, fill_place.
  destruct (place_args pre (args a) (args b) post) as [E1 E2].
  destruct (Ha pre (args b ++ post)%list) as (x & st & y & H1 & H2 & H3 & ->). rewrite <- E1 in H1, H2.
  cbn in H2. injection H2 as <-. rewrite app_nil_r in H3. subst ta.
  destruct (Hb (pre ++ args a)%list post) as (x' & st' & y' & H1' & H2' & -> & H4'). rewrite <- E2 in H1', H2'.
  exists (x ++ x')%list, st', y'. rewrite tokens_app, H1, H1'.
  split; [reflexivity|]. split; [exact H2'|]. split; [apply app_assoc|exact H4'].
Qed.

(* Otherwise an ender must follow, or nothing. *)
Lemma lexes_soft_app : forall h a b ta tb, lexes false a ta -> lexes h b tb -> ends_token b = true -> b <> [] ->
  lexes h (a ++ b)%list (ta ++ tb)%list.
Proof.
  intros h a b ta tb [Ra Ha] [Rb Hb] Eb N. split; [apply spellable_app; assumption|]. intros pre post. rewrite args_app, fill_place.
  destruct (place_args pre (args a) (args b) post) as [E1 E2].
  destruct (Ha pre (args b ++ post)%list) as (x & st & y & H1 & H2 & H3 & Hc). rewrite <- E1 in H1, H2.
  destruct (Hb (pre ++ args a)%list post) as (x' & st' & y' & H1' & H2' & -> & H4'). rewrite <- E2 in H1', H2'.
  exists (x ++ y ++ x')%list, st', y'. rewrite tokens_app, H1.
  rewrite (ender_tokens _ _ _ _ _ _ H2 Hc (fill_head _ _ N Eb) H1'). subst ta.
  split; [reflexivity|]. split; [exact H2'|]. split; [rewrite <- !app_assoc; reflexivity|exact H4'].
Qed.

Lemma lexes_app : forall a b ta tb, lexes false a ta -> lexes false b tb -> ends_token b = true ->
  lexes false (a ++ b)%list (ta ++ tb)%list.
Proof.
  intros a b ta tb Ha Hb E. destruct b as [|p b]; [|apply lexes_soft_app; [assumption..|discriminate]].
  destruct Hb as [_ Hb]. destruct (Hb [] []) as (x & st & y & H1 & H2 & -> & _). cbn in H1. injection H1 as <- <-. cbn in H2.
  injection H2 as <-. rewrite !app_nil_r. exact Ha.
Qed.

(* Constant text. *)
Definition const_lexes (sharp : bool) (s : string) (ts : list lexeme) : Prop :=
  forall A, exists x st y, tokens_from A L0 s = Some (x, st) /\ flush A st = Some y /\ ts = (x ++ y)%list
    /\ (if sharp then st = L0 else st <> LComment).

Lemma lexes_lit : forall h s ts, const_lexes h s ts -> lexes h (lit s) ts.
Proof.
  intros h s ts H. split; [unfold spellable; destruct m; [reflexivity..|rewrite args_lit; reflexivity]|].
  intros pre post. rewrite args_lit, fill_lit. apply H.
Qed.
End Lexes.

(* A placeholder. *)
Lemma advance_digits : forall A s m, (forall a, In a (list_ascii_of_string s) -> is_num a = true) ->
  exists n, dec_digits m s = Some n
    /\ tokens_from A (LVar (Some m)) s = Some ([], LVar (Some n)).
Proof.
  intros A s. induction s as [|a s IH]; intros m H; cbn [dec_digits tokens_from].
  - eauto.
  - assert (D : exists d, dec_digit a = Some d).
    { specialize (H a (or_introl eq_refl)). unfold is_num, in_range in H. unfold dec_digit. rewrite H. eauto. }
    destruct D as (d & D). cbn [advance]. rewrite D.
    destruct (IH (10 * m + d)%N) as (n & E1 & E2); [intros b Hb; apply H; right; exact Hb|].
    exists n. rewrite E1, E2. split; reflexivity.
Qed.

Lemma tokens_dollar : forall A k,
  tokens_from A L0 ("$" ++ string_of_nat k) = Some ([], LVar (Some (N.of_nat k))).
Proof.
  intros A k. unfold string_of_nat. destruct (string_of_N_head (N.of_nat k)) as (a & s & E & Ha).
  pose proof (dec_nat_N (N.of_nat k)) as V. rewrite E in V. cbn [dec_nat dec_digits] in V.
  assert (Hd : forall b, In b (list_ascii_of_string (String a s)) -> is_num b = true).
  { intros b Hb. rewrite <- E in Hb. apply string_of_N_digits in Hb. exact Hb. }
  rewrite E. cbn [append]. cbn [tokens_from]. change (advance A L0 "$") with (start "$").
  change (start "$") with (Some (@nil lexeme, LVar None)). cbn iota beta.
  destruct (dec_digit a) as [d|] eqn:D; [|discriminate]. cbn [advance]. rewrite D.
  destruct (advance_digits A s (10 * 0 + d)%N) as (n & E1 & E2); [intros b Hb; apply Hd; right; exact Hb|].
  rewrite E2. rewrite V in E1. injection E1 as <-. reflexivity.
Qed.

(* A number. *)
Lemma num_digits : forall A s m, (forall a, In a (list_ascii_of_string s) -> is_num a = true) ->
  exists n, dec_digits m s = Some n /\ tokens_from A (LNum m) s = Some ([], LNum n).
Proof.
  intros A s. induction s as [|a s IH]; intros m H; cbn [dec_digits tokens_from].
  - eauto.
  - assert (D : exists d, dec_digit a = Some d).
    { specialize (H a (or_introl eq_refl)). unfold is_num, in_range in H. unfold dec_digit. rewrite H. eauto. }
    destruct D as (d & D). cbn [advance]. rewrite D.
    destruct (IH (10 * m + d)%N) as (n & E1 & E2); [intros b Hb; apply H; right; exact Hb|].
    exists n. rewrite E1, E2. split; reflexivity.
Qed.

Lemma start_digit : forall a d, dec_digit a = Some d -> start a = Some ([], LNum d).
Proof.
  intros [[] [] [] [] [] [] [] []] d; vm_compute; intro H; congruence.
Qed.

Lemma const_num : forall n, const_lexes false (string_of_N n) [KNum n].
Proof.
  intros n A. destruct (string_of_N_head n) as (a & s & E & Ha).
  pose proof (dec_nat_N n) as V. rewrite E in V. cbn [dec_nat dec_digits] in V.
  assert (Hd : forall b, In b (list_ascii_of_string (String a s)) -> is_num b = true).
  { intros b Hb. rewrite <- E in Hb. apply string_of_N_digits in Hb. exact Hb. }
  destruct (dec_digit a) as [d|] eqn:D; [|discriminate].
  exists [], (LNum n), [KNum n]. split; [|repeat split; discriminate].
  rewrite E. cbn [tokens_from]. change (advance A L0 a) with (start a). rewrite (start_digit _ _ D).
  cbn iota beta. destruct (num_digits A s (10 * 0 + d)%N) as (m & E1 & E2); [intros b Hb; apply Hd; right; exact Hb|].
  change (10 * 0 + d)%N with d in E1, E2, V. rewrite E2. rewrite V in E1. injection E1 as <-. reflexivity.
Qed.

(* An unquoted word. *)
Lemma word_more : forall A s m, forallb word_char (list_ascii_of_string s) = true ->
  tokens_from A (LWord m) s = Some ([], LWord (m ++ s)).
Proof.
  intros A s. induction s as [|a s IH]; intros m H; cbn [tokens_from].
  - rewrite sapp_nil. reflexivity.
  - cbn in H. apply andb_true_iff in H. destruct H as [H1 H2]. cbn [advance]. rewrite H1.
    rewrite IH by exact H2. rewrite sapp_assoc. reflexivity.
Qed.

Lemma start_alpha : forall a, is_alpha a = true -> start a = Some ([], LWord (String a "")).
Proof. intros [[] [] [] [] [] [] [] []]; vm_compute; intro H; congruence. Qed.

Lemma tokens_word : forall A s, bare s = true -> tokens_from A L0 s = Some ([], LWord s).
Proof.
  intros A [|a s] H; [discriminate|]. cbn [bare] in H. apply andb_true_iff in H. destruct H as [H1 H2].
  cbn [tokens_from]. change (advance A L0 a) with (start a). rewrite (start_alpha _ H1). cbn iota beta.
  rewrite word_more by exact H2. reflexivity.
Qed.
Lemma const_word : forall s, bare s = true -> const_lexes false s [KWord s].
Proof.
  intros s H A. exists [], (LWord s), [KWord s]. split; [apply tokens_word, H|repeat split; discriminate].
Qed.

(* A quoted name. *)
Lemma quote_body : forall A done s m rest, ~ In dquote (list_ascii_of_string s) ->
  tokens_from A (LQuote done m) (s ++ rest) = tokens_from A (LQuote done (m ++ s)) rest.
Proof.
  intros A done s. induction s as [|a s IH]; intros m rest H; cbn [append tokens_from].
  - rewrite sapp_nil. reflexivity.
  - cbn [advance]. destruct (Ascii.eqb_spec a dquote) as [->|_]; [exfalso; apply H; left; reflexivity|].
    rewrite IH by (intro Hin; apply H; right; exact Hin). rewrite sapp_assoc. cbn [append].
    destruct (tokens_from A (LQuote done (m ++ String a s)) rest) as [[x st]|]; reflexivity.
Qed.

Section Names.
  Context {O : Oracle}.

  Lemma quote_part : forall A done p, plain_text p = true ->
    tokens_from A (LQuote done "") (p ++ dq) = Some ([], LQuoted done p).
  Proof.
    intros A done p H. rewrite quote_body by (apply plain_no_quote, H). reflexivity.
  Qed.

  Lemma quote_parts : forall A l done, l <> [] ->
    forallb (fun p => plain_text p && negb (String.eqb p "")) l = true ->
    exists init p, (done ++ l)%list = (init ++ [p])%list /\ p <> ""
      /\ tokens_from A (match done with [] => L0 | _ => LDot done end) (join_with "." (map go_quote l))
         = Some ([], LQuoted init p).
  Proof.
    intros A l. induction l as [|p [|p' l] IH]; intros done N H; [congruence| |].
    - cbn in H. rewrite andb_true_r, andb_true_iff, negb_true_iff in H. destruct H as [H1 H2].
      exists done, p. split; [reflexivity|]. split; [apply String.eqb_neq, H2|]. cbn [map join_with].
      unfold go_quote. rewrite plain_quote by exact H1. unfold dq at 1, str1. cbn [append tokens_from].
      destruct done; cbn [advance]; [change (start """") with (Some (@nil lexeme, LQuote [] ""))|
        change (Ascii.eqb """" dquote) with true]; cbn iota beta; rewrite quote_part by exact H1; reflexivity.
    - change (forallb (fun p => plain_text p && negb (String.eqb p "")) (p :: p' :: l))
        with ((plain_text p && negb (String.eqb p ""))
              && forallb (fun p => plain_text p && negb (String.eqb p "")) (p' :: l)) in H.
      apply andb_true_iff in H. destruct H as [H1 H]. apply andb_true_iff in H1. destruct H1 as [H1 H2].
      rewrite negb_true_iff in H2.
      change (join_with "." (map go_quote (p :: p' :: l)))
        with (go_quote p ++ "." ++ join_with "." (map go_quote (p' :: l))).
      destruct (IH (done ++ [p])%list ltac:(discriminate) H) as (init & q & E & Nq & Ht).
      exists init, q. split; [rewrite <- E, <- app_assoc; reflexivity|]. split; [exact Nq|].
      rewrite tokens_app.
      assert (G : tokens_from A (match done with [] => L0 | _ => LDot done end) (go_quote p) = Some ([], LQuoted done p)).
      { unfold go_quote. rewrite plain_quote by exact H1. unfold dq at 1, str1. cbn [append tokens_from].
        destruct done; cbn [advance]; [change (start """") with (Some (@nil lexeme, LQuote [] ""))|
          change (Ascii.eqb """" dquote) with true]; cbn iota beta; rewrite quote_part by exact H1; reflexivity. }
      rewrite G. cbn [append tokens_from advance]. change (Ascii.eqb "." dquote) with false.
      change (Ascii.eqb "." dot) with true. cbn iota. rewrite H2. cbn iota beta.
      destruct (done ++ [p])%list as [|d0 ds] eqn:Ed; [destruct done; discriminate|].
      rewrite Ht. reflexivity.
  Qed.

  Lemma parts_plain : forall x, plain_name x = true -> parts_of x = split_on "." x.
  Proof. intros [|a x] H; [discriminate|reflexivity]. Qed.

  Lemma const_name : forall x, plain_name x = true -> const_lexes false (quote x) [KName (parts_of x)].
  Proof.
    intros x H A. rewrite parts_plain by exact H. unfold quote.
    destruct (quote_parts A (split_on "." x) [] (split_nonempty _ _) H) as (init & p & E & Np & Ht).
    cbn [app] in E. exists [], (LQuoted init p), [KName (init ++ [p])]. split; [exact Ht|].
    split; [|split; [rewrite E; reflexivity|discriminate]]. cbn [flush].
    rewrite (proj2 (String.eqb_neq _ _) Np). reflexivity.
  Qed.
End Names.

(* ------------------------------------------------------------------------- *)
(* Values                                                                      *)
(* ------------------------------------------------------------------------- *)

(* The tokens of a value in each style. *)
Fixpoint literal_toks (v : gval) : list lexeme :=
  match v with
  | GStr s => [KVal v]
  | GTime t => [KVal (GStr (time_text t))]
  | GBool b => [KWord (if b then "true" else "false")]
  | GInt _ z => if (z <? 0)%Z then [KOp "-"; KNum (Z.abs_N z)] else [KNum (Z.abs_N z)]
  | GBytes s => [KWord "decode"; KOpen; KVal (GStr (hex_encode s)); KComma; KVal (GStr "hex"); KClose]
  | GValuer u => literal_toks u
  | _ => [KWord "NULL"]
  end.
Definition value_toks {m : style} (v : gval) : list lexeme :=
  match m, v with
  | _, GNil => [KWord "NULL"]
  | Literals _, _ => literal_toks v
  | _, _ => [KVal v]
  end.

Lemma val_number {O : Oracle} : forall v, @lexes O ByNumber false [Val v] [KVal v].
Proof.
  intro v. split; [reflexivity|]. intros pre post. cbn [args fill]. rewrite sapp_nil. unfold spelled, dollar.
  exists [], (LVar (Some (N.of_nat (S (length pre))))), [KVal v].
  split; [apply tokens_dollar|]. split; [|split; [reflexivity|discriminate]].
  cbn [flush env_of by_number numbered]. replace (N.of_nat (S (length pre)) =? 0)%N with false by (symmetry; apply N.eqb_neq; lia).
  rewrite Nnat.Nat2N.id. replace (S (length pre) - 1) with (length pre) by lia.
  rewrite nth_error_app2, Nat.sub_diag by lia. reflexivity.
Qed.

(* :arg_i *)
Lemma arg_more : forall A s k, forallb is_alnum (list_ascii_of_string s) = true ->
  tokens_from A (LArg k) s = Some ([], LArg (k ++ s)).
Proof.
  intros A s. induction s as [|a s IH]; intros k H; cbn [tokens_from].
  - rewrite sapp_nil. reflexivity.
  - cbn in H. apply andb_true_iff in H. destruct H as [H1 H2]. cbn [advance]. rewrite H1.
    rewrite IH by exact H2. rewrite sapp_assoc. reflexivity.
Qed.

Lemma argument_name : forall pre v post k,
  argument ("arg_" ++ string_of_nat (k + length pre))
    (combine (names_from k (length (pre ++ v :: post))) (pre ++ v :: post)) = Some v.
Proof.
  induction pre as [|u pre IH]; intros v post k; cbn [app length].
  - unfold names_from. cbn [seq map combine argument]. rewrite Nat.add_0_r.
    rewrite (proj2 (String.eqb_eq _ _) eq_refl). reflexivity.
  - unfold names_from. cbn [seq map combine argument].
    destruct (String.eqb ("arg_" ++ string_of_nat (k + S (length pre))) ("arg_" ++ string_of_nat k)) eqn:E.
    + apply String.eqb_eq in E. apply (arg_name_inj (k + S (length pre)) k) in E. lia.
    + replace (k + S (length pre)) with (S k + length pre) by lia. apply IH.
Qed.

Lemma digits_alnum : forall n, forallb is_alnum (list_ascii_of_string (string_of_N n)) = true.
Proof.
  intro n. apply forallb_forall. intros a Ha. apply string_of_N_digits in Ha.
  unfold is_alnum. apply orb_true_iff. right. exact Ha.
Qed.

Lemma val_name {O : Oracle} : forall v, @lexes O ByName false [Val v] [KVal v].
Proof.
  intro v. split; [reflexivity|]. intros pre post. cbn [args fill]. rewrite sapp_nil. unfold spelled, colon.
  exists [], (LArg ("arg_" ++ string_of_nat (1 + length pre))), [KVal v].
  split; [|split; [|split; [reflexivity|discriminate]]].
  - change (":arg_" ++ string_of_nat (S (length pre)))%string
      with (String ":" ("arg_" ++ string_of_nat (S (length pre)))).
    cbn [tokens_from]. change (advance ?A L0 ":") with (start ":").
    change (start ":") with (Some (@nil lexeme, LArg "")). cbn iota beta.
    rewrite arg_more; [reflexivity|]. cbn. apply digits_alnum.
  - cbn [flush]. unfold env_of, named. cbn [by_name]. change ([v] ++ post)%list with (v :: post).
    rewrite argument_name. reflexivity.
Qed.

(* A string literal. *)
Lemma string_tokens : forall A s acc x, pg_string_body (escapes A) s = Some (x, "") ->
  tokens_from A (LStr acc) s = Some ([], LStrEnd (acc ++ x)).
Proof.
  intros A s. remember (String.length s) as n eqn:En. assert (L : String.length s <= n) by lia. clear En.
  revert s L. induction n as [|n IH]; intros [|a s] L acc x H; try discriminate; [cbn in L; lia|].
  cbn in L. cbn [pg_string_body] in H. cbn [tokens_from advance].
  destruct (Ascii.eqb a squote).
  - destruct s as [|b s]; [|destruct (Ascii.eqb b squote) eqn:Eb].
    + injection H as <-. rewrite sapp_nil. reflexivity.
    + destruct (pg_string_body (escapes A) s) as [[t rest]|] eqn:E; [|discriminate]. injection H as <- ->.
      cbn [tokens_from advance]. rewrite Eb. cbn in L.
      rewrite (IH s ltac:(lia) (acc ++ String squote "") t E). rewrite sapp_assoc. reflexivity.
    + discriminate.
  - rewrite (andb_comm (Ascii.eqb a backslash)). destruct (escapes A && Ascii.eqb a backslash).
    + destruct s as [|b s]; [discriminate|].
      destruct (pg_string_body (escapes A) s) as [[t rest]|] eqn:E; [|discriminate]. injection H as <- ->.
      cbn [tokens_from advance]. cbn in L.
      rewrite (IH s ltac:(lia) (acc ++ String (unescape b) "") t E). rewrite sapp_assoc. reflexivity.
    + destruct (pg_string_body (escapes A) s) as [[t rest]|] eqn:E; [|discriminate]. injection H as <- ->.
      rewrite (IH s ltac:(lia) (acc ++ String a "") t E). rewrite sapp_assoc. reflexivity.
Qed.

Lemma quoted_tokens : forall A s x, pg_string (escapes A) s = Some (x, "") ->
  tokens_from A L0 s = Some ([], LStrEnd x).
Proof.
  intros A [|a s] x H; [discriminate|]. cbn [pg_string] in H.
  destruct (Ascii.eqb_spec a squote) as [->|]; [|discriminate]. cbn [tokens_from].
  change (advance A L0 squote) with (start squote). change (start squote) with (Some (@nil lexeme, LStr "")).
  cbn iota beta. rewrite (string_tokens A s "" x H). reflexivity.
Qed.

(* Text without quote and backslash stands for itself. *)
Definition calm (a : ascii) : bool := negb (Ascii.eqb a squote || Ascii.eqb a backslash).
Lemma calm_body : forall e s rest, forallb calm (list_ascii_of_string s) = true -> ends_string rest = true ->
  pg_string_body e (s ++ "'" ++ rest) = Some (s, rest).
Proof.
  intros e s rest H Hr. induction s as [|a s IH]; cbn [append pg_string_body].
  - change (Ascii.eqb "'" squote) with true. cbn iota. destruct rest as [|b rest]; [reflexivity|].
    cbn in Hr. destruct (Ascii.eqb b squote); [discriminate|reflexivity].
  - cbn in H. apply andb_true_iff in H. destruct H as [Ha H]. unfold calm in Ha.
    rewrite negb_true_iff, orb_false_iff in Ha. destruct Ha as [-> ->]. rewrite andb_false_r.
    cbn [append] in IH. rewrite IH by exact H. reflexivity.
Qed.

Lemma calm_app : forall s t, forallb calm (list_ascii_of_string s) = true ->
  forallb calm (list_ascii_of_string t) = true -> forallb calm (list_ascii_of_string (s ++ t)) = true.
Proof.
  intros s t Hs Ht. induction s as [|a s IH]; [exact Ht|]. cbn in *. apply andb_true_iff in Hs.
  destruct Hs as [-> Hs]. apply IH, Hs.
Qed.
Lemma calm_zeros : forall n, forallb calm (list_ascii_of_string (zeros n)) = true.
Proof. induction n as [|n IH]; [reflexivity|]. cbn [zeros]. apply calm_app; [reflexivity|exact IH]. Qed.
Lemma calm_N : forall n, forallb calm (list_ascii_of_string (string_of_N n)) = true.
Proof.
  intro n. apply forallb_forall. intros a Ha. apply string_of_N_digits in Ha. revert Ha.
  destruct a as [[] [] [] [] [] [] [] []]; vm_compute; congruence.
Qed.
Lemma calm_pad : forall k n, forallb calm (list_ascii_of_string (pad_N k n)) = true.
Proof. intros k n. unfold pad_N. apply calm_app; [apply calm_zeros|apply calm_N]. Qed.
Lemma calm_padZ : forall k z, forallb calm (list_ascii_of_string (pad_Z k z)) = true.
Proof. intros k z. unfold pad_Z. apply calm_app; [destruct (z <? 0)%Z; reflexivity|apply calm_pad]. Qed.
Lemma calm_trim : forall s, forallb calm (list_ascii_of_string s) = true ->
  forallb calm (list_ascii_of_string (trim_zeros s)) = true.
Proof.
  induction s as [|a s IH]; intro H; [reflexivity|]. cbn in H. apply andb_true_iff in H. destruct H as [Ha H].
  specialize (IH H). cbn [trim_zeros]. destruct (trim_zeros s) as [|b t].
  - destruct (Ascii.eqb a "0"); [reflexivity|]. cbn. rewrite Ha. reflexivity.
  - cbn. rewrite Ha. exact IH.
Qed.
Lemma calm_micro : forall n, forallb calm (list_ascii_of_string (format_micro n)) = true.
Proof.
  intro n. unfold format_micro. pose proof (calm_trim _ (calm_pad 6 (Z.to_N (n / 1000)))) as H.
  destruct (trim_zeros _) as [|a t]; [reflexivity|exact H].
Qed.

Lemma substring_all : forall s t, String.substring 0 (String.length s) (s ++ t) = s.
Proof. induction s as [|a s IH]; intro t; [destruct t; reflexivity|]. cbn. rewrite IH. reflexivity. Qed.

Lemma slength_app : forall s t, String.length (s ++ t) = String.length s + String.length t.
Proof. induction s as [|a s IH]; intro t; [reflexivity|]. cbn. rewrite IH. reflexivity. Qed.

Lemma time_literal : forall t, format_time t = "'" ++ time_text t ++ "'"
  /\ forallb calm (list_ascii_of_string (time_text t)) = true.
Proof.
  intro t. assert (H : exists x, format_time t = "'" ++ x ++ "'" /\ forallb calm (list_ascii_of_string x) = true).
  { unfold format_time. cbv zeta. destruct (civil_of_days (tm_sec t / 86400)) as [[y mo] d].
    set (tod := (tm_sec t mod 86400)%Z).
    exists (pad_Z 4 y ++ "-" ++ pad_Z 2 mo ++ "-" ++ pad_Z 2 d ++ " "
      ++ pad_Z 2 (tod / 3600)%Z ++ ":" ++ pad_Z 2 ((tod / 60) mod 60)%Z ++ ":" ++ pad_Z 2 (tod mod 60)%Z
      ++ format_micro (tm_nsec t) ++ "+00").
    split; [rewrite !sapp_assoc; reflexivity|].
    repeat (apply calm_app; [first [apply calm_padZ|apply calm_micro|reflexivity]|]). reflexivity. }
  destruct H as (x & E & H). assert (T : time_text t = x).
  { unfold time_text. rewrite E. cbn [append String.substring String.length]. rewrite slength_app. cbn [String.length].
    replace (S (String.length x + 1) - 2) with (String.length x) by lia. apply substring_all. }
  rewrite T. split; assumption.
Qed.

(* The tokens of a literal. *)
Definition literal_lexes (e : bool) (s : string) (ts : list lexeme) : Prop :=
  exists x st y, tokens_from (no_args e) L0 s = Some (x, st) /\ flush (no_args e) st = Some y
    /\ ts = (x ++ y)%list /\ st <> LComment.

Lemma quoted_lexes : forall e s x, pg_string e s = Some (x, "") -> literal_lexes e s [KVal (GStr x)].
Proof.
  intros e s x H. exists [], (LStrEnd x), [KVal (GStr x)].
  split; [apply quoted_tokens, H|]. repeat split. discriminate.
Qed.

Lemma calm_lexes : forall e s, forallb calm (list_ascii_of_string s) = true ->
  literal_lexes e ("'" ++ s ++ "'") [KVal (GStr s)].
Proof. intros e s H. apply quoted_lexes. exact (calm_body e s "" H eq_refl). Qed.

Lemma const_literal : forall e s ts, const_lexes false s ts -> literal_lexes e s ts.
Proof. intros e s ts H. apply H. Qed.

Lemma hex_calm : forall s, forallb calm (list_ascii_of_string (hex_encode s)) = true.
Proof.
  assert (D : forall n k, forallb calm (list_ascii_of_string (hex_digits n k)) = true).
  { induction n as [|n IH]; intro k; [reflexivity|]. cbn [hex_digits list_ascii_of_string forallb].
    rewrite IH, andb_true_r. set (d := ((k / 16 ^ N.of_nat n) mod 16)%N).
    assert (d < 16)%N by (subst d; apply N.mod_lt; discriminate). generalize dependent d. clear.
    intros d H. unfold calm, hex_digit. rewrite negb_true_iff, orb_false_iff, !Ascii.eqb_neq.
    split; intro E; apply (f_equal byte) in E; rewrite byte_chr in E by (destruct (d <? 10)%N; lia);
      change (byte squote) with 39%N in E; change (byte backslash) with 92%N in E;
      destruct (N.ltb_spec d 10); lia. }
  induction s as [|a s IH]; [reflexivity|]. cbn [hex_encode]. apply calm_app; [apply D|exact IH].
Qed.

Section Inline.
  Context {O : Oracle}.

  Lemma no_special_runes : forall s, no_special s = true -> forall r, In r (runes s) -> ~ In r [39; 92; 10; 13; 9]%N.
  Proof.
    intros s H r Hr Hin. unfold no_special in H. rewrite forallb_forall in H. specialize (H r Hr).
    apply negb_true_iff in H. assert (X : existsb (N.eqb r) [39; 92; 10; 13; 9]%N = true); [|congruence].
    apply existsb_exists. exists r. split; [exact Hin|apply N.eqb_refl].
  Qed.

  Lemma int_lexes : forall e z, literal_lexes e (format_int z) (literal_toks (GInt KInt z)).
  Proof.
    intros e z. unfold format_int, string_of_Z. cbn [literal_toks].
    destruct (const_num (Z.abs_N z) (no_args e)) as (x & st & y & H1 & H2 & H3 & H4).
    destruct (z <? 0)%Z; [|exists x, st, y; repeat split; assumption].
    destruct (string_of_N_head (Z.abs_N z)) as (a & s & E & Ha). rewrite E in *.
    exists (KOp "-" :: x), st, y. split; [|split; [exact H2|split; [cbn [app]; rewrite <- H3; reflexivity|exact H4]]].
    cbn [append tokens_from] in *. change (advance (no_args e) L0 "-") with (start "-").
    change (start "-") with (Some (@nil lexeme, LDash)). cbn iota beta.
    change (advance (no_args e) L0 a) with (start a) in H1.
    assert (D : advance (no_args e) LDash a = match start a with Some (t, st') => Some (KOp "-" :: t, st') | None => None end).
    { revert Ha. clear. destruct a as [[] [] [] [] [] [] [] []]; vm_compute; congruence. }
    rewrite D. destruct (start a) as [[t st']|]; [|discriminate].
    destruct (tokens_from (no_args e) st' s) as [[t2 st2]|]; [|discriminate]. injection H1 as <- <-. reflexivity.
  Qed.

  Lemma bytes_lexes : forall e s, literal_lexes e (format_bytes s) (literal_toks (GBytes s)).
  Proof.
    intros e s. exists [KWord "decode"; KOpen; KVal (GStr (hex_encode s)); KComma; KVal (GStr "hex"); KClose], L0, [].
    split; [|repeat split; discriminate]. unfold format_bytes.
    replace ("decode('" ++ hex_encode s ++ "', 'hex')")%string
      with ("decode(" ++ ("'" ++ hex_encode s ++ "'") ++ ", 'hex')")%string
      by (rewrite !sapp_assoc; reflexivity).
    rewrite tokens_app. change (tokens_from (no_args e) L0 "decode(") with (Some ([KWord "decode"; KOpen], L0)). cbn iota beta.
    rewrite tokens_app. rewrite (quoted_tokens (no_args e) _ (hex_encode s))
      by exact (calm_body e (hex_encode s) "" (hex_calm s) eq_refl). cbn iota beta.
    rewrite (ender_tokens (no_args e) (LStrEnd (hex_encode s)) ", 'hex')" [KComma; KVal (GStr "hex"); KClose] L0
               [KVal (GStr (hex_encode s))]); [reflexivity|reflexivity|discriminate|reflexivity|].
    destruct e; reflexivity.
  Qed.

  Lemma string_lexes : forall (e : bool) s, utf8_valid s = true -> e || no_special s = true ->
    literal_lexes e (format_string s) [KVal (GStr s)].
  Proof.
    intros e s V H. apply quoted_lexes. destruct e.
    - pose proof (format_string_read s "" eq_refl) as R. rewrite sapp_nil, valid_runes in R by exact V. exact R.
    - pose proof (PropsText.C44_plain_strings_partial s "" V eq_refl (no_special_runes s H)) as R.
      rewrite sapp_nil in R. exact R.
  Qed.

  Lemma literal_tokens : forall e v a, literal_says e v = Some a ->
    printable v = true /\ literal_lexes e (literal v) (literal_toks v).
  Proof.
    assert (W : forall e s, bare s = true -> literal_lexes e s [KWord s])
      by (intros; apply const_literal, const_word; assumption).
    intros e v. induction v; intros a H; try discriminate; cbn [literal_says] in H.
    all: try (split; [reflexivity|]; first [apply (W e "NULL"); reflexivity|apply int_lexes|apply bytes_lexes]; fail).
    - destruct (utf8_valid s && (e || no_special s)) eqn:E; [|discriminate]. apply andb_true_iff in E.
      split; [reflexivity|]. apply string_lexes; apply E.
    - split; [reflexivity|]. destruct b; apply W; reflexivity.
    - destruct (time_literal t) as [E C]. split; [reflexivity|]. unfold literal. cbn [format_value literal_toks].
      rewrite E. apply calm_lexes, C.
    - destruct (IHv a H) as [P L]. split; [exact P|exact L].
  Qed.

  Lemma val_inline : forall e v a, literal_says e v = Some a -> @lexes O (Literals e) false [Val v] (literal_toks v).
  Proof.
    intros e v a H. destruct (literal_tokens e v a H) as (P & x & st & y & H1 & H2 & H3 & H4). split.
    - cbn. rewrite P. reflexivity.
    - intros pre post. exists x, st, y. cbn [args fill]. rewrite sapp_nil. repeat split; assumption.
  Qed.

  (* A value that is not nil. *)
  Lemma lexes_val : forall {m : style} v a, shown v = Some a -> v <> GNil -> lexes false [Val v] (value_toks v).
  Proof.
    intros [| |e] v a H N.
    - assert (E : @value_toks ByNumber v = [KVal v]) by (destruct v; reflexivity || congruence).
      rewrite E. apply val_number.
    - assert (E : @value_toks ByName v = [KVal v]) by (destruct v; reflexivity || congruence).
      rewrite E. apply val_name.
    - assert (E : @value_toks (Literals e) v = literal_toks v) by (destruct v; reflexivity || congruence).
      rewrite E. apply (val_inline e v a H).
  Qed.
End Inline.
