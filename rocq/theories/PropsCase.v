(* C31: in which case keywords may be written, letter by letter. *)
From Coq Require Import Lia.
From Verif Require Import LexerP PropsLex JoinSpec.
Local Open Scope list_scope.

Definition small_letters : list ascii := list_ascii_of_string "abcdefghijklmnopqrstuvwxyz".
Definition capitals : list ascii := list_ascii_of_string "ABCDEFGHIJKLMNOPQRSTUVWXYZ".

(* a is the letter b, or b is its capital. *)
Definition same_letter (a b : ascii) : Prop := a = b \/ In (a, b) (combine small_letters capitals).
Definition spelled (w keyword : string) : Prop := Forall2 same_letter (list_ascii_of_string w) (list_ascii_of_string keyword).

Definition no_small (k : string) : Prop := forall a, In a (list_ascii_of_string k) -> ~ In a small_letters.

Lemma upper_letter : forall a b, ~ In b small_letters -> (upper_ascii a = b <-> same_letter a b).
Proof.
  assert (K : forall a, upper_ascii a = match find (fun p => Ascii.eqb (fst p) a) (combine small_letters capitals) with Some p => snd p | None => a end).
  { intro a. destruct a as [[] [] [] [] [] [] [] []]; vm_compute; reflexivity. }
  assert (F : forall a c, In (a, c) (combine small_letters capitals) -> upper_ascii a = c).
  { intros a c H. cbn in H. repeat (destruct H as [H|H]; [injection H as <- <-; vm_compute; reflexivity|]). contradiction H. }
  intros a b N. split.
  - intro E. rewrite K in E. destruct (find (fun p => Ascii.eqb (fst p) a) (combine small_letters capitals)) as [[x c]|] eqn:Fi; [|left; exact E].
    apply find_some in Fi. destruct Fi as [I Q]. cbn in Q. apply Ascii.eqb_eq in Q. cbn in E. subst. right. exact I.
  - intros [->|I]; [|exact (F a b I)]. rewrite K.
    destruct (find (fun p => Ascii.eqb (fst p) b) (combine small_letters capitals)) as [[x c]|] eqn:Fi; [|reflexivity].
    exfalso. apply N. apply find_some in Fi. destruct Fi as [I Q]. cbn in Q. apply Ascii.eqb_eq in Q. subst.
    apply in_combine_l in I. exact I.
Qed.

Lemma upper_spelled : forall w k, no_small k -> (to_upper w = k <-> spelled w k).
Proof.
  induction w as [|a w IH]; intros [|b k] N; cbn.
  - split; intro; [constructor|reflexivity].
  - split; intro H; [discriminate H|inversion H].
  - split; intro H; [discriminate H|inversion H].
  - assert (Nk : no_small k) by (intros c Hc; apply N; right; exact Hc).
    pose proof (upper_letter a b (N b (or_introl eq_refl))) as U. split.
    + intro H. injection H as H1 H2. constructor; [apply U; exact H1|apply (IH k Nk); exact H2].
    + intro H. inversion H as [|? ? ? ? H1 H2]; subst. f_equal; [apply U; exact H1|apply (IH k Nk); exact H2].
Qed.

Lemma sql_words_capital : forall k, In k sql_words -> no_small k /\ k <> ""%string /\ Forall (fun a => word_rune (byte a)) (list_ascii_of_string k).
Proof.
  assert (C : forallb (fun k => forallb (fun a => negb (existsb (Ascii.eqb a) small_letters) && is_word (byte a)) (list_ascii_of_string k) && negb (String.eqb k "")) sql_words = true)
    by (vm_compute; reflexivity).
  intros k I. rewrite forallb_forall in C. specialize (C k I). apply andb_prop in C. destruct C as [C E]. rewrite forallb_forall in C.
  split; [|split].
  - intros a Ha Hs. specialize (C a Ha). apply andb_prop in C. destruct C as [C _].
    rewrite (proj2 (existsb_exists _ _)) in C; [discriminate C|]. exists a. split; [exact Hs|apply Ascii.eqb_refl].
  - intros ->. discriminate E.
  - apply Forall_forall. intros a Ha. specialize (C a Ha). apply andb_prop in C. apply word_spec. exact (proj2 C).
Qed.

Lemma same_letter_word : forall a b, same_letter a b -> word_rune (byte b) -> word_rune (byte a).
Proof.
  intros a b [->|H] W; [exact W|]. apply word_spec. cbn in H.
  repeat (destruct H as [H|H]; [injection H as <- <-; vm_compute; reflexivity|]). contradiction H.
Qed.

(* A keyword in any mixture of small letters and capitals is one token, that keyword, and keeps its
   spelling. *)
Theorem C31_any_case : forall w k, In k sql_words -> spelled w k -> lex w = [{| tk_type := k; tk_value := w |}].
Proof.
  intros w k I S. destruct (sql_words_capital k I) as (N & Ne & F).
  assert (Fw : Forall (fun a => word_rune (byte a)) (list_ascii_of_string w)).
  { clear - S F. unfold spelled in S. induction S as [|a b l l' H S IH]; [constructor|]. inversion F; subst. constructor; [eapply same_letter_word; eassumption|apply IH; assumption]. }
  assert (New : w <> ""%string) by (intros ->; destruct k; [apply Ne; reflexivity|inversion S]).
  destruct (C31_one_word w New Fw) as ([ty v] & E & Ev & K & _). cbn in *. subst v. rewrite E. apply (upper_spelled w k N) in S. rewrite S in K. rewrite (K I). reflexivity.
Qed.
Print Assumptions C31_any_case.

(* Every other word is a literal. *)
Theorem C31_other_words : forall w, w <> ""%string -> Forall (fun a => word_rune (byte a)) (list_ascii_of_string w) ->
  (forall k, In k sql_words -> ~ spelled w k) -> lex w = [{| tk_type := "Literal"; tk_value := w |}].
Proof.
  intros w Ne F N. destruct (C31_one_word w Ne F) as ([ty v] & E & Ev & _ & K). cbn in *. subst v. rewrite E.
  rewrite K; [reflexivity|]. intro I. apply (N _ I). apply upper_spelled; [exact (proj1 (sql_words_capital _ I))|reflexivity].
Qed.
Print Assumptions C31_other_words.

(* The grammar of joins (JoinSpec.v) means the same spelling. *)
Lemma join_spelling : forall w k, In k sql_words -> (spells w k <-> spelled w k).
Proof. intros w k I. apply upper_spelled. exact (proj1 (sql_words_capital k I)). Qed.

Example C31_any_case_example : In "INNER"%string sql_words /\ spelled "iNneR" "INNER".
Proof.
  split; [vm_compute; tauto|]. unfold spelled. cbn.
  repeat (first [constructor; [first [left; reflexivity|right; vm_compute; tauto]|]|constructor]).
Qed.
Example C31_other_words_example : forall k, In k sql_words -> ~ spelled "inners" k.
Proof.
  intros k I S. apply upper_spelled in S; [|exact (proj1 (sql_words_capital k I))]. vm_compute in S. subst k. vm_compute in I.
  repeat (destruct I as [I|I]; [discriminate I|]). exact I.
Qed.
