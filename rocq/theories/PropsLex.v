(* C30, C31: the lexer. *)
From Verif Require Import LexerP.

(* ------------------------------------------------------------------------- *)
(* C30                                                                        *)
(* ------------------------------------------------------------------------- *)

(* Every loop of the lexer ends: as many steps as the text has bytes are enough for each of
   them, more steps change nothing, and there are at most as many tokens as bytes. *)
Theorem C30_lexer_stops : forall s, exists ts,
  (forall n k, String.length s <= n -> String.length s <= k -> l_iterator n k (l_new s) = Some ts)
  /\ length ts <= String.length s.
Proof.
  intro s. exists (lex s). split; [intros n k H1 H2; apply machine_lex; assumption|].
  pose proof (runes_length s). pose proof (lex_all_length (length (runes s)) (runes s)).
  unfold lex. lia.
Qed.
Print Assumptions C30_lexer_stops.

(* The tokens put end to end are the text without its white space. *)
Theorem C30_nothing_is_lost : forall s n ts, no_nul s -> String.length s <= n ->
  l_iterator n n (l_new s) = Some ts ->
  concat_str (map tk_value ts) = without_blanks (scrubbed s)
  /\ (utf8_valid s = true -> concat_str (map tk_value ts) = without_blanks s).
Proof.
  intros s n ts N L H. rewrite machine_lex in H by exact L. injection H as <-.
  pose proof (lex_values s N) as E. split; [exact E|]. intro V. rewrite E, scrubbed_valid; auto.
Qed.
Print Assumptions C30_nothing_is_lost.

(* The function on lists of runes is the lexer of the code. *)
Theorem C30_lexer_is_a_function_of_the_text : forall s n, String.length s <= n ->
  l_iterator n n (l_new s) = Some (lex s).
Proof. intros s n H. apply machine_lex; exact H. Qed.
Print Assumptions C30_lexer_is_a_function_of_the_text.

Example C30_example : l_iterator 40 40 (l_new "LEFT join b ON a.x=b.y, (c)")
  = Some [ {| tk_type := "LEFT"; tk_value := "LEFT" |}; {| tk_type := "JOIN"; tk_value := "join" |};
           {| tk_type := "Literal"; tk_value := "b" |}; {| tk_type := "ON"; tk_value := "ON" |};
           {| tk_type := "Literal"; tk_value := "a.x" |}; {| tk_type := "="; tk_value := "=" |};
           {| tk_type := "Literal"; tk_value := "b.y" |}; {| tk_type := ","; tk_value := "," |};
           {| tk_type := "("; tk_value := "(" |}; {| tk_type := "Literal"; tk_value := "c" |};
           {| tk_type := ")"; tk_value := ")" |} ].
Proof. vm_compute. reflexivity. Qed.
Example C30_example_values :
  without_blanks (scrubbed "LEFT join b ON a.x=b.y, (c)") = "LEFTjoinbONa.x=b.y,(c)"%string.
Proof. vm_compute. reflexivity. Qed.
Example C30_example_no_nul : no_nul "LEFT join b ON a.x=b.y, (c)".
Proof. unfold no_nul. cbn. intuition discriminate. Qed.

(* Finding: a NUL byte ends the text, whatever follows it. *)
Theorem C30_text_after_a_nul_is_dropped : forall a b, no_nul a ->
  lex (a ++ String "000" b) = lex a.
Proof. exact lex_nul. Qed.
Print Assumptions C30_text_after_a_nul_is_dropped.

Theorem C30_text_with_nul_refuted : exists s n ts, String.length s <= n
  /\ l_iterator n n (l_new s) = Some ts
  /\ concat_str (map tk_value ts) <> without_blanks (scrubbed s).
Proof.
  exists ("a" ++ String "000" "b")%string, 3, [{| tk_type := "Literal"; tk_value := "a" |}].
  split; [vm_compute; repeat constructor|]. split; [vm_compute; reflexivity|].
  vm_compute. discriminate.
Qed.
Print Assumptions C30_text_with_nul_refuted.

(* ------------------------------------------------------------------------- *)
(* C31                                                                        *)
(* ------------------------------------------------------------------------- *)

(* The tokens are those of the specification [scan], and no others. *)
Theorem C31_tokens : forall s ts, no_nul s -> (scan (runes s) ts <-> lex s = ts).
Proof. intros s ts N. rewrite lex_is by exact N. split; congruence. Qed.
Print Assumptions C31_tokens.

(* One word alone: its type is its upper-case form if that is a keyword, else Literal. *)
Theorem C31_one_word : forall w,
  w <> ""%string -> Forall (fun a => word_rune (byte a)) (list_ascii_of_string w) ->
  exists t, lex w = [t] /\ tk_value t = w
    /\ (In (to_upper w) sql_words -> tk_type t = to_upper w)
    /\ (~ In (to_upper w) sql_words -> tk_type t = "Literal"%string).
Proof.
  intros w Ne F.
  assert (L : layout false [Word w] w).
  { pose proof (layout_lexeme false "" (Word w) [] "" (Forall_nil _) (conj Ne F)) as P.
    cbn in P. rewrite sapp_nil in P. apply P; [discriminate|]. constructor. constructor. }
  apply layout_lex in L. inversion L as [|p t ps ts Ht F2 E1 E2]; subst. inversion F2; subst.
  exists t. split; [reflexivity|exact Ht].
Qed.
Print Assumptions C31_one_word.

(* White space between two texts separates them, and its shape and amount do not matter. *)
Theorem C31_white_space : forall a g b, blanks g -> g <> ""%string -> no_nul a -> no_nul b ->
  lex (a ++ g ++ b) = (lex a ++ lex b)%list.
Proof. exact lex_spaces. Qed.
Print Assumptions C31_white_space.

(* A symbol separates as well, with or without white space. *)
Theorem C31_symbols : forall a g c h b, blanks g -> blanks h -> symbol_rune (byte c) ->
  no_nul a -> no_nul b ->
  lex (a ++ g ++ str1 c ++ h ++ b)
  = (lex a ++ {| tk_type := str1 c; tk_value := str1 c |} :: lex b)%list.
Proof.
  intros a g c h b Hg Hh Hc Na Nb.
  assert (Nh : no_nul (h ++ b)) by (apply no_nul_app; split; [apply blanks_no_nul, Hh|exact Nb]).
  rewrite <- sapp_assoc. unfold str1 at 1. cbn [append].
  rewrite lex_symbol; [|exact Hc| |exact Nh].
  - rewrite (lex_blanks_left h b Hh Nb). f_equal.
    destruct g as [|x g]; [rewrite sapp_nil; reflexivity|].
    pose proof (lex_spaces a (String x g) "" Hg ltac:(discriminate) Na ltac:(intros [])) as E.
    rewrite sapp_nil in E. rewrite E, app_nil_r. reflexivity.
  - apply no_nul_app. split; [exact Na|apply blanks_no_nul, Hg].
Qed.
Print Assumptions C31_symbols.

(* Words and symbols laid out in any way give one token each. *)
Theorem C31_layout : forall ps s, layout false ps s -> Forall2 lexeme_token ps (lex s).
Proof. intros ps s H. eapply layout_lex, H. Qed.
Print Assumptions C31_layout.

(* So two layouts of the same words and symbols have the same tokens. *)
Theorem C31_layout_does_not_matter : forall ps s1 s2,
  layout false ps s1 -> layout false ps s2 -> lex s1 = lex s2.
Proof.
  intros ps s1 s2 H1 H2. pose proof (layout_lex _ _ _ H1) as F1. pose proof (layout_lex _ _ _ H2) as F2.
  clear H1 H2. revert F2. generalize (lex s2) as ts2. induction F1 as [|p t ps ts Ht F1 IH]; intros ts2 F2;
    inversion_clear F2 as [|? t2 ? ts2' Ht2 F2']; [reflexivity|]. f_equal; [|apply IH, F2'].
  destruct p as [w|a]; cbn in *; [eapply word_token_unique; eassumption|congruence].
Qed.
Print Assumptions C31_layout_does_not_matter.

Example C31_example_layout :
  layout false [Word "LEFT"; Word "join"; Word "b.c"; Sym "="; Word "x_1"]
    (" LEFT" ++ tab ++ " join" ++ nl ++ "b.c=x_1 ").
Proof.
  apply (layout_lexeme false " " (Word "LEFT") _ (tab ++ " join" ++ nl ++ "b.c=x_1 ")).
  { repeat (constructor; [apply blank_spec; reflexivity|]). constructor. }
  { split; [discriminate|]. repeat (constructor; [apply word_spec; reflexivity|]). constructor. }
  { discriminate. }
  apply (layout_lexeme true (tab ++ " ") (Word "join") _ (nl ++ "b.c=x_1 ")).
  { repeat (constructor; [apply blank_spec; reflexivity|]). constructor. }
  { split; [discriminate|]. repeat (constructor; [apply word_spec; reflexivity|]). constructor. }
  { discriminate. }
  apply (layout_lexeme true nl (Word "b.c") _ "=x_1 ").
  { repeat (constructor; [apply blank_spec; reflexivity|]). constructor. }
  { split; [discriminate|]. repeat (constructor; [apply word_spec; reflexivity|]). constructor. }
  { discriminate. }
  apply (layout_lexeme true "" (Sym "=") _ "x_1 ").
  { constructor. }
  { cbn. apply symbol_rune_spec. vm_compute. tauto. }
  { discriminate. }
  apply (layout_lexeme false "" (Word "x_1") _ " ").
  { constructor. }
  { split; [discriminate|]. repeat (constructor; [apply word_spec; reflexivity|]). constructor. }
  { discriminate. }
  constructor. repeat (constructor; [apply blank_spec; reflexivity|]). constructor.
Qed.
Example C31_example_word : lex "LeFt" = [{| tk_type := "LEFT"; tk_value := "LeFt" |}]
  /\ lex "lefty" = [{| tk_type := "Literal"; tk_value := "lefty" |}].
Proof. split; vm_compute; reflexivity. Qed.

(* Without white space two words are one. *)
Theorem C31_words_need_white_space_refuted : exists a b, no_nul a /\ no_nul b
  /\ lex (a ++ b) <> (lex a ++ lex b)%list.
Proof.
  exists "left", "join". split; [|split]; [unfold no_nul; cbn; intuition discriminate..|].
  vm_compute. discriminate.
Qed.
Print Assumptions C31_words_need_white_space_refuted.
