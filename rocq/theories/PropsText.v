(* C07-C10, C41, C44: quoted identifiers and literals. *)
From Verif Require Import QuoteP ExactP NumeralsP RenderP Build Sort.

(* ------------------------------------------------------------------------- *)
(* C07-C09: identifiers                                                        *)
(* ------------------------------------------------------------------------- *)

(* For any table of printable characters, equal quoted texts come from equal names. *)
Theorem C07_quoting_is_injective {O : Oracle} : forall s t, quote s = quote t -> s = t.
Proof. exact quote_inj. Qed.
Print Assumptions C07_quoting_is_injective.

Example C07_sample :
  @quote go_oracle ("a""b." ++ str1 "001" ++ str1 "255" ++ "\x")
  = """a\""b"".""\x01\xff\\x""".
Proof. vm_compute. reflexivity. Qed.

(* [plain_name s]: the dot-separated parts of s are non-empty and made of printable characters
   other than double quote and backslash, in valid UTF-8. *)
Theorem C08_postgres_reads_the_given_name {O : Oracle} : forall s rest,
  plain_name s = true -> ends_name rest = true ->
  pg_name (quote s ++ rest) = Some (split_on "." s, rest).
Proof. exact pg_name_quote. Qed.
Print Assumptions C08_postgres_reads_the_given_name.

(* No other name is read back. *)
Theorem C08_exactly_the_plain_names {O : Oracle} : forall s rest, ends_name rest = true ->
  (pg_name (quote s ++ rest) = Some (split_on "." s, rest) <-> plain_name s = true).
Proof.
  intros s rest Hr. split; [apply plain_exact, Hr|]. intro H. apply pg_name_quote; assumption.
Qed.
Print Assumptions C08_exactly_the_plain_names.

Example C08_sample :
  @plain_name go_oracle "public.caf" = true
  /\ @plain_name go_oracle ("sch (x); --." ++ str1 "195" ++ str1 "169") = true.
Proof. split; vm_compute; reflexivity. Qed.

(* Full claim of C09: pg_name (quote s) = Some (parts, "") for all s. It is false: *)
Theorem C09_identifiers_can_inject_refuted {O : Oracle} :
  exists s, forall parts, pg_name (quote s) <> Some (parts, "").
Proof.
  exists ("a" ++ dq ++ "b"). intros parts H.
  pose proof (quote_breaks "a" "b" "") as Q. rewrite sapp_nil in Q.
  rewrite Q in H; try reflexivity; try discriminate; intros [E|[]]; discriminate.
Qed.
Print Assumptions C09_identifiers_can_inject_refuted.

(* Every name made of p, a double quote and u breaks out: PostgreSQL reads the identifier p\
   (with the backslash) and then u as SQL. *)
Theorem C09_double_quote_breaks_out_refuted {O : Oracle} : forall p u rest,
  plain_text p = true -> plain_text u = true ->
  ~ In dot (list_ascii_of_string p) -> ~ In dot (list_ascii_of_string u) -> u <> "" ->
  pg_name (quote (p ++ dq ++ u) ++ rest) = Some ([p ++ str1 backslash], u ++ dq ++ rest).
Proof. exact quote_breaks. Qed.
Print Assumptions C09_double_quote_breaks_out_refuted.

(* A condition on a column whose name comes from the user. *)
Example C09_injection :
  (do c <- cmp_expr (lk_condition (GStr ("id"" = 0) OR (1=1) --"))) OpEqual (GInt KInt 1);
   do d <- lk_delete (GStr "users");
   do d <- del_run d [DelWhere c];
   @query go_oracle (StDelete d))
  = Ok ("DELETE FROM ""users"" WHERE (""id\"" = 0) OR (1=1) --"" = $1)", [GInt KInt 1]).
Proof. vm_compute. reflexivity. Qed.

(* What holds: a name without double quote and without empty part, of any other bytes, is read
   as one dotted name with the same number of parts, and nothing else. Each part is read as the
   text between its quotes, which is the part itself up to backslash escapes. *)
Theorem C09_without_double_quote_partial {O : Oracle} : forall s rest,
  ~ In dquote (list_ascii_of_string s) -> ~ In "" (split_on "." s) -> ends_name rest = true ->
  pg_name (quote s ++ rest) = Some (map escaped (split_on "." s), rest).
Proof. exact pg_name_no_quote. Qed.
Print Assumptions C09_without_double_quote_partial.

(* And nothing more holds: a name with a double quote or an empty part is never read as one
   dotted name that ends at its last character, whatever else the name is made of. *)
Theorem C09_exactly_partial {O : Oracle} : forall s rest, ends_name rest = true ->
  ((exists parts, pg_name (quote s ++ rest) = Some (parts, rest))
   <-> ~ In dquote (list_ascii_of_string s) /\ ~ In "" (split_on "." s)).
Proof.
  intros s rest Hr. split; [intros (parts & H); exact (name_exact s rest parts Hr H)|].
  intros (H1 & H2). eexists. apply pg_name_no_quote; assumption.
Qed.
Print Assumptions C09_exactly_partial.

Example C09_sample :
  ~ In dquote (list_ascii_of_string ("a\b." ++ nl ++ str1 "255"))
  /\ ~ In "" (split_on "." ("a\b." ++ nl ++ str1 "255"))
  /\ map (@escaped go_oracle) (split_on "." ("a\b." ++ nl ++ str1 "255")) = ["a\\b"; "\n\xff"].
Proof.
  repeat split; vm_compute; try reflexivity; intro H;
    repeat destruct H as [H|H]; try discriminate; exact H.
Qed.

(* ------------------------------------------------------------------------- *)
(* C10, C44: string literals                                                   *)
(* ------------------------------------------------------------------------- *)

(* Read with backslash escapes, the literal ends at its last character and denotes the string. *)
Theorem C10_string_literal_decodes {O : Oracle} : forall s rest,
  utf8_valid s = true -> ends_string rest = true ->
  pg_string true (literal (GStr s) ++ rest) = Some (s, rest).
Proof.
  intros s rest H Hr. change (literal (GStr s)) with (format_string s).
  rewrite format_string_read by exact Hr. rewrite valid_runes by exact H. reflexivity.
Qed.
Print Assumptions C10_string_literal_decodes.

(* Invalid bytes are replaced by U+FFFD; the literal still ends at its last character. *)
Theorem C10_any_string_literal_is_closed {O : Oracle} : forall s rest,
  ends_string rest = true ->
  pg_string true (literal (GStr s) ++ rest) = Some (concat_str (map encode_rune (runes s)), rest).
Proof. intros s rest Hr. change (literal (GStr s)) with (format_string s). apply format_string_read, Hr. Qed.
Print Assumptions C10_any_string_literal_is_closed.

(* The literal denotes the string itself for valid UTF-8 only. *)
Theorem C10_exactly_the_valid_strings {O : Oracle} : forall s rest, ends_string rest = true ->
  (pg_string true (literal (GStr s) ++ rest) = Some (s, rest) <-> utf8_valid s = true).
Proof.
  intros s rest Hr. split; [|intro V; apply C10_string_literal_decodes; assumption].
  rewrite C10_any_string_literal_is_closed by exact Hr. intro H. injection H as H. apply encoded_same, H.
Qed.
Print Assumptions C10_exactly_the_valid_strings.

Example C10_sample :
  let s := "it's \ " ++ nl ++ str1 "195" ++ str1 "169" in
  utf8_valid s = true
  /\ @literal go_oracle (GStr s) = "'it\'s \\ \n" ++ str1 "195" ++ str1 "169" ++ "'".
Proof. split; vm_compute; reflexivity. Qed.

(* With standard_conforming_strings = on (the default of PostgreSQL since 9.1) a backslash is
   an ordinary character: then a quote in the value closes the literal. *)
Theorem C44_standard_strings_refuted {O : Oracle} :
  exists s, utf8_valid s = true
    /\ pg_string false (literal (GStr s)) = Some (str1 backslash, "; DROP TABLE users; --'").
Proof. exists "'; DROP TABLE users; --". split; vm_compute; reflexivity. Qed.
Print Assumptions C44_standard_strings_refuted.

(* Strings without quote, backslash and line break or tab are read back in both modes. *)
Theorem C44_plain_strings_partial {O : Oracle} : forall s rest,
  utf8_valid s = true -> ends_string rest = true ->
  (forall r, In r (runes s) -> ~ In r [39; 92; 10; 13; 9]%N) ->
  pg_string false (literal (GStr s) ++ rest) = Some (s, rest).
Proof.
  intros s rest V Hr H. change (literal (GStr s)) with (format_string s).
  unfold format_string. rewrite !sapp_assoc. cbn [append pg_string].
  change (Ascii.eqb "'" squote) with true. cbn iota.
  rewrite <- (valid_runes s V) at 2. revert H. generalize (runes s) as l.
  induction l as [|r l IH]; intro H; cbn [map concat_str append].
  - cbn [pg_string_body]. change (Ascii.eqb "'" squote) with true. cbn iota.
    destruct rest as [|b rest]; [reflexivity|]. cbn in Hr. destruct (Ascii.eqb b squote); [discriminate|reflexivity].
  - rewrite sapp_assoc.
    assert (N := H r (or_introl eq_refl)). cbn in N.
    assert (E : format_rune r = encode_rune r).
    { unfold format_rune. repeat match goal with |- context [if (r =? ?k)%N then _ else _] =>
        destruct (N.eqb_spec r k); [exfalso; subst; tauto|] end. reflexivity. }
    rewrite E. apply body_plain; [|apply IH; intros x Hx; apply H; right; exact Hx].
    destruct (r <? 128)%N eqn:L.
    + unfold encode_rune. rewrite L. intros a [<-|[]].
      apply N.ltb_lt in L.
      split; apply byte_neq; rewrite byte_chr by (eapply N.lt_trans; [exact L|reflexivity]); intro; subst; tauto.
    + apply N.ltb_ge in L. intros a Ha. apply encode_high in Ha; [|exact L].
      split; intros ->; apply N.leb_le in Ha; vm_compute in Ha; discriminate.
Qed.
Print Assumptions C44_plain_strings_partial.

(* And no other string is. *)
Theorem C44_exactly_partial {O : Oracle} : forall s rest, ends_string rest = true ->
  (pg_string false (literal (GStr s) ++ rest) = Some (s, rest)
   <-> utf8_valid s = true /\ forall r, In r (runes s) -> ~ In r [39; 92; 10; 13; 9]%N).
Proof.
  intros s rest Hr. split; [apply literal_standard|]. intros (V & H). apply C44_plain_strings_partial; assumption.
Qed.
Print Assumptions C44_exactly_partial.

Example C44_sample : forall r, In r (runes "plain text") -> ~ In r [39; 92; 10; 13; 9]%N.
Proof. intros r H. vm_compute in H. cbn. intuition subst; discriminate. Qed.

(* ------------------------------------------------------------------------- *)
(* C41: other literals                                                         *)
(* ------------------------------------------------------------------------- *)

Theorem C41_integers_are_exact {O : Oracle} : forall k z, dec_value (literal (GInt k z)) = Some z.
Proof. intros k z. apply dec_value_Z. Qed.
Print Assumptions C41_integers_are_exact.

Theorem C41_bytes_are_exact {O : Oracle} : forall s, exists h,
  literal (GBytes s) = "decode('" ++ h ++ "', 'hex')" /\ unhex_bytes h = Some s.
Proof. intro s. exists (hex_encode s). split; [reflexivity|apply unhex_encode]. Qed.
Print Assumptions C41_bytes_are_exact.

Theorem C41_booleans {O : Oracle} : forall b, literal (GBool b) = if b then "true" else "false".
Proof. reflexivity. Qed.
Print Assumptions C41_booleans.

(* A driver.Valuer prints as the value it returns. *)
Theorem C41_valuers {O : Oracle} : forall v, literal (GValuer v) = literal v.
Proof. reflexivity. Qed.
Print Assumptions C41_valuers.

Example C41_sample :
  @literal go_oracle (GInt KInt64 (-9223372036854775808)) = "-9223372036854775808"
  /\ @literal go_oracle (GBytes (str1 "255" ++ "A")) = "decode('ff41', 'hex')".
Proof. split; vm_compute; reflexivity. Qed.
