(* Proofs for the exact conditions of C08, C09, C10 and C44. *)
From Coq Require Import ZifyBool ZifyN ZifyNat.
From Verif Require Export QuoteP.

Lemma slen0 : forall s : string, String.length s = 0 -> s = "".
Proof. intros [|a s] H; [reflexivity|discriminate]. Qed.

(* ------------------------------------------------------------------------- *)
(* String literals                                                             *)
(* ------------------------------------------------------------------------- *)

(* Reading consumes at least the closing quote. *)
Lemma string_body_shrinks : forall esc n s t r, String.length s <= n -> pg_string_body esc s = Some (t, r) ->
  String.length r < String.length s.
Proof.
  intro esc. induction n as [|n IH]; intros s t r L H.
  - destruct s; [discriminate|cbn in L; lia].
  - destruct s as [|a s]; [discriminate|]. cbn in L. cbn [pg_string_body] in H.
    destruct (Ascii.eqb a squote).
    + destruct s as [|b s]; [injection H as <- <-; cbn; lia|]. cbn in L.
      destruct (Ascii.eqb b squote).
      * destruct (pg_string_body esc s) as [[t' r']|] eqn:E; [|discriminate]. injection H as <- <-.
        apply IH in E; [|lia]. cbn. lia.
      * injection H as <- <-. cbn. lia.
    + destruct (esc && Ascii.eqb a backslash).
      * destruct s as [|b s]; [discriminate|]. cbn in L.
        destruct (pg_string_body esc s) as [[t' r']|] eqn:E; [|discriminate]. injection H as <- <-.
        apply IH in E; [|lia]. cbn. lia.
      * destruct (pg_string_body esc s) as [[t' r']|] eqn:E; [|discriminate]. injection H as <- <-.
        apply IH in E; [|lia]. cbn. lia.
Qed.

(* Text without quote is read as it is. *)
Lemma body_verbatim : forall bs rest t r, ~ In squote (list_ascii_of_string bs) ->
  pg_string_body false (bs ++ rest) = Some (t, r) ->
  exists t', pg_string_body false rest = Some (t', r) /\ t = bs ++ t'.
Proof.
  induction bs as [|a bs IH]; intros rest t r H E; [exists t; split; [exact E|reflexivity]|].
  cbn [append pg_string_body andb] in E. destruct (Ascii.eqb_spec a squote) as [->|_].
  { exfalso. apply H. left. reflexivity. }
  destruct (pg_string_body false (bs ++ rest)) as [[t1 r1]|] eqn:E1; [|discriminate]. injection E as <- <-.
  destruct (IH _ _ _ (fun K => H (or_intror K)) E1) as (t' & H1 & ->). exists t'. split; [exact H1|reflexivity].
Qed.

Lemma format_rune_no_quote : forall r, (r <> 39)%N -> ~ In squote (list_ascii_of_string (format_rune r)).
Proof.
  intros r N. unfold format_rune.
  repeat match goal with |- context [if (r =? ?k)%N then _ else _] =>
    destruct (N.eqb_spec r k); [cbn; intuition discriminate|] end.
  destruct (r <? 128)%N eqn:L.
  - unfold encode_rune. rewrite L. intros [E|[]]. apply (f_equal byte) in E. rewrite byte_chr in E by lia.
    change (byte squote) with 39%N in E. lia.
  - intro H. apply encode_high in H; [|lia]. change (byte squote) with 39%N in H. lia.
Qed.

Lemma encode_rune_nonempty : forall r, encode_rune r <> "".
Proof.
  intro r. unfold encode_rune.
  destruct (r <? 128)%N; [discriminate|]. destruct (r <? 2048)%N; [discriminate|].
  destruct (negb _); [discriminate|]. destruct (r <? 65536)%N; discriminate.
Qed.

Lemma format_rune_nonempty : forall r, format_rune r <> "".
Proof.
  intro r. unfold format_rune.
  repeat match goal with |- context [if (r =? ?k)%N then _ else _] => destruct (N.eqb_spec r k); [discriminate|] end.
  apply encode_rune_nonempty.
Qed.

Lemma format_rune_head : forall r s, exists a s', format_rune r ++ s = String a s' /\ a <> squote.
Proof.
  intros r s. destruct (N.eqb_spec r 39) as [->|N].
  - exists backslash. eexists. split; [reflexivity|discriminate].
  - pose proof (format_rune_no_quote r N) as Q. pose proof (format_rune_nonempty r) as E.
    destruct (format_rune r) as [|a x]; [congruence|]. exists a, (x ++ s). split; [reflexivity|].
    intros ->. apply Q. left. reflexivity.
Qed.

(* If the literal ends where it should, it is read as it is. *)
Lemma literal_verbatim : forall l rest t,
  pg_string_body false (concat_str (map format_rune l) ++ "'" ++ rest) = Some (t, rest) ->
  t = concat_str (map format_rune l).
Proof.
  induction l as [|r l IH]; intros rest t H.
  - cbn [map concat_str append] in *. cbn [pg_string_body] in H. change (Ascii.eqb "'" squote) with true in H.
    cbn iota in H. destruct rest as [|b rest]; [injection H as <-; reflexivity|].
    destruct (Ascii.eqb b squote); [|injection H as <-; reflexivity].
    destruct (pg_string_body false rest) as [[t' r']|] eqn:E; [|discriminate]. injection H as <- ->.
    apply (string_body_shrinks false _ _ _ _ (le_n _)) in E. cbn in E. lia.
  - cbn [map concat_str] in *. rewrite sapp_assoc in H. destruct (N.eqb_spec r 39) as [->|N].
    + exfalso. change (format_rune 39) with (String backslash (str1 squote)) in H.
      cbn [append str1 pg_string_body] in H. change (Ascii.eqb backslash squote) with false in H.
      cbn [andb] in H. rewrite Ascii.eqb_refl in H.
      destruct l as [|r' l].
      * cbn [map concat_str append] in H. change (Ascii.eqb "'" squote) with true in H. cbn iota in H.
        destruct (pg_string_body false rest) as [[t' r']|] eqn:E; [|discriminate]. injection H as <- ->.
        apply (string_body_shrinks false _ _ _ _ (le_n _)) in E. lia.
      * cbn [map concat_str] in H. rewrite sapp_assoc in H.
        destruct (format_rune_head r' (concat_str (map format_rune l) ++ String "'" rest)) as (a & s' & E & Na).
        assert (L : String.length rest < String.length (String a s')).
        { rewrite <- E, !slen_app. cbn. lia. }
        cbn [append] in H. rewrite E in H. destruct (Ascii.eqb_spec a squote); [congruence|].
        injection H as <- H. rewrite H in L. lia.
    + destruct (body_verbatim _ _ _ _ (format_rune_no_quote r N) H) as (t' & H' & ->).
      rewrite (IH _ _ H'). reflexivity.
Qed.

(* The literal is longer than the string unless each character stands for itself. *)
Definition special_rune (r : N) : Prop := In r [39; 92; 10; 13; 9]%N.

Lemma format_rune_longer : forall r, String.length (encode_rune r) <= String.length (format_rune r)
  /\ (special_rune r -> String.length (encode_rune r) < String.length (format_rune r)).
Proof.
  intro r. unfold format_rune, special_rune. cbn [In].
  repeat match goal with |- context [if (r =? ?k)%N then _ else _] =>
    destruct (N.eqb_spec r k) as [->|?]; [cbn; lia|] end. split; [lia|intros K; exfalso; intuition congruence].
Qed.

Lemma chunk_longer : forall c, chunk_wf c ->
  String.length (chunk_bytes c) <= String.length (format_rune (chunk_rune c))
  /\ (chunk_ok c = false \/ special_rune (chunk_rune c) ->
      String.length (chunk_bytes c) < String.length (format_rune (chunk_rune c))).
Proof.
  intros [r bs|b] W; cbn [chunk_bytes chunk_rune chunk_ok].
  - destruct W as (<- & _). destruct (format_rune_longer r) as [H1 H2]. split; [exact H1|].
    intros [K|K]; [discriminate|exact (H2 K)].
  - change (String.length (format_rune rune_error)) with 3. cbn. lia.
Qed.

Lemma literal_same : forall s, concat_str (map format_rune (runes s)) = s ->
  utf8_valid s = true /\ forall r, In r (runes s) -> ~ special_rune r.
Proof.
  intros s H. unfold runes, utf8_valid in *. pose proof (chunks_wf s) as W.
  assert (L : String.length (concat_str (map format_rune (map chunk_rune (chunks s))))
              = String.length (concat_str (map chunk_bytes (chunks s)))) by (rewrite chunks_bytes, H; reflexivity).
  clear H. revert W L. generalize (chunks s) as l.
  assert (G : forall l, Forall chunk_wf l -> String.length (concat_str (map chunk_bytes l))
              <= String.length (concat_str (map format_rune (map chunk_rune l)))).
  { induction l as [|c l IH]; intro W; [reflexivity|]. inversion_clear W as [|? ? Wc Wl].
    cbn [map concat_str]. rewrite !slen_app. specialize (IH Wl). destruct (chunk_longer c Wc). lia. }
  induction l as [|c l IH]; intros W L; [split; [reflexivity|intros r []]|].
  inversion_clear W as [|? ? Wc Wl]. cbn [map concat_str forallb] in *. rewrite !slen_app in L.
  specialize (G l Wl). destruct (chunk_longer c Wc) as [L1 L2].
  assert (L3 : String.length (concat_str (map format_rune (map chunk_rune l)))
             = String.length (concat_str (map chunk_bytes l))) by lia.
  destruct (IH Wl L3) as [V S].
  assert (N : ~ (chunk_ok c = false \/ special_rune (chunk_rune c))) by (intro K; specialize (L2 K); lia).
  split.
  - rewrite V, andb_true_r. destruct (chunk_ok c); [reflexivity|]. exfalso. apply N. left. reflexivity.
  - intros r [<-|Hr]; [|exact (S r Hr)]. intro K. apply N. right. exact K.
Qed.

Lemma literal_standard : forall s rest, pg_string false (format_string s ++ rest) = Some (s, rest) ->
  utf8_valid s = true /\ forall r, In r (runes s) -> ~ special_rune r.
Proof.
  intros s rest H. unfold format_string in H. rewrite !sapp_assoc in H. cbn [append pg_string] in H.
  change (Ascii.eqb "'" squote) with true in H. cbn iota in H.
  apply literal_verbatim in H. apply literal_same. symmetry. exact H.
Qed.

Lemma encoded_same : forall s, concat_str (map encode_rune (runes s)) = s -> utf8_valid s = true.
Proof.
  intros s H. unfold runes, utf8_valid in *. pose proof (chunks_wf s) as W.
  assert (L : String.length (concat_str (map encode_rune (map chunk_rune (chunks s))))
              = String.length (concat_str (map chunk_bytes (chunks s)))) by (rewrite chunks_bytes, H; reflexivity).
  clear H. revert W L. generalize (chunks s) as l.
  assert (C : forall c, chunk_wf c -> String.length (chunk_bytes c) <= String.length (encode_rune (chunk_rune c))
     /\ (chunk_ok c = false -> String.length (chunk_bytes c) < String.length (encode_rune (chunk_rune c)))).
  { intros [r bs|b] Wc; cbn [chunk_bytes chunk_rune chunk_ok].
    - destruct Wc as (<- & _). split; [reflexivity|discriminate].
    - change (String.length (encode_rune rune_error)) with 3. cbn. lia. }
  assert (G : forall l, Forall chunk_wf l -> String.length (concat_str (map chunk_bytes l))
              <= String.length (concat_str (map encode_rune (map chunk_rune l)))).
  { induction l as [|c l IH]; intro W; [reflexivity|]. inversion_clear W as [|? ? Wc Wl].
    cbn [map concat_str]. rewrite !slen_app. specialize (IH Wl). destruct (C c Wc). lia. }
  induction l as [|c l IH]; intros W L; [reflexivity|].
  inversion_clear W as [|? ? Wc Wl]. cbn [map concat_str forallb] in *. rewrite !slen_app in L.
  specialize (G l Wl). destruct (C c Wc) as [L1 L2]. rewrite IH by (assumption || lia).
  destruct (chunk_ok c); [reflexivity|]. specialize (L2 eq_refl). lia.
Qed.

(* ------------------------------------------------------------------------- *)
(* Identifiers                                                                 *)
(* ------------------------------------------------------------------------- *)

Lemma ident_body_shrinks : forall n s t r, String.length s <= n -> pg_ident_body s = Some (t, r) ->
  String.length r < String.length s.
Proof.
  induction n as [|n IH]; intros s t r L H.
  - destruct s; [discriminate|cbn in L; lia].
  - destruct s as [|a s]; [discriminate|]. cbn in L. cbn [pg_ident_body] in H.
    destruct (Ascii.eqb a dquote).
    + destruct s as [|b s]; [injection H as <- <-; cbn; lia|]. cbn in L.
      destruct (Ascii.eqb b dquote).
      * destruct (pg_ident_body s) as [[t' r']|] eqn:E; [|discriminate]. injection H as <- <-.
        apply IH in E; [|lia]. cbn. lia.
      * injection H as <- <-. cbn. lia.
    + destruct (pg_ident_body s) as [[t' r']|] eqn:E; [|discriminate]. injection H as <- <-.
      apply IH in E; [|lia]. cbn. lia.
Qed.

Lemma name_shrinks : forall n s l r, pg_name_fuel n s = Some (l, r) -> String.length r < String.length s.
Proof.
  induction n as [|n IH]; intros s l r H; [discriminate|]. cbn [pg_name_fuel] in H.
  unfold pg_ident in H. destruct s as [|a s]; [discriminate|]. destruct (Ascii.eqb a dquote); [|discriminate].
  destruct (pg_ident_body s) as [[i q]|] eqn:E; [|discriminate].
  apply (ident_body_shrinks _ _ _ _ (le_n _)) in E.
  destruct i as [|x i]; [discriminate|]. destruct q as [|b q].
  - injection H as <- <-. cbn. lia.
  - destruct (Ascii.eqb b dot).
    + destruct (pg_name_fuel n q) as [[is r2]|] eqn:E2; [|discriminate]. injection H as <- <-.
      apply IH in E2. cbn in *. lia.
    + injection H as <- <-. cbn in *. lia.
Qed.

Lemma ident_verbatim : forall bs rest t r, ~ In dquote (list_ascii_of_string bs) ->
  pg_ident_body (bs ++ rest) = Some (t, r) ->
  exists t', pg_ident_body rest = Some (t', r) /\ t = bs ++ t'.
Proof.
  induction bs as [|a bs IH]; intros rest t r H E; [exists t; split; [exact E|reflexivity]|].
  cbn [append pg_ident_body] in E. destruct (Ascii.eqb_spec a dquote) as [->|_].
  { exfalso. apply H. left. reflexivity. }
  destruct (pg_ident_body (bs ++ rest)) as [[t1 r1]|] eqn:E1; [|discriminate]. injection E as <- <-.
  destruct (IH _ _ _ (fun K => H (or_intror K)) E1) as (t' & H1 & ->). exists t'. split; [exact H1|reflexivity].
Qed.

Section Exact.
  Context {O : Oracle}.

  (* The text after the quoted text of a part: the other parts and [rest]. *)
  Fixpoint after (ps : list string) (rest : string) : string :=
    match ps with
    | [] => rest
    | p :: ps' => String dot (String dquote (escaped p ++ dq ++ after ps' rest))
    end.

  Lemma quote_after : forall ps p rest,
    join_with "." (map go_quote (p :: ps)) ++ rest = String dquote (escaped p ++ dq ++ after ps rest).
  Proof.
    induction ps as [|p' ps IH]; intros p rest.
    - cbn [map join_with after]. unfold go_quote. rewrite !sapp_assoc. reflexivity.
    - change (join_with "." (map go_quote (p :: p' :: ps)))
        with (go_quote p ++ "." ++ join_with "." (map go_quote (p' :: ps))).
      rewrite !sapp_assoc. rewrite IH. unfold go_quote. rewrite !sapp_assoc. reflexivity.
  Qed.

  Lemma after_longer : forall ps rest, String.length rest <= String.length (after ps rest).
  Proof.
    induction ps as [|p ps IH]; intro rest; [reflexivity|]. cbn [after String.length]. rewrite !slen_app.
    specialize (IH rest). lia.
  Qed.

  Lemma chunk_head : forall c s, chunk_wf c -> ~ In dot (list_ascii_of_string (chunk_bytes c)) ->
    exists a s', quote_chunk c ++ s = String a s' /\ a <> dquote /\ a <> dot.
  Proof.
    intros c s W D.
    assert (B : forall x, exists a s', String bslash x ++ s = String a s' /\ a <> dquote /\ a <> dot).
    { intro x. exists bslash. eexists. split; [reflexivity|]. split; discriminate. }
    destruct c as [r bs|b]; cbn [quote_chunk chunk_bytes] in *; [|apply B].
    destruct ((r =? 34)%N || (r =? 92)%N) eqn:E1; [apply B|].
    destruct (is_print r).
    - pose proof (chunk_plain_bytes r bs W ltac:(lia) ltac:(lia)) as P.
      assert (N : bs <> "") by (destruct W as (<- & _); apply encode_rune_nonempty).
      destruct bs as [|a x]; [congruence|]. exists a, (x ++ s). split; [reflexivity|]. split.
      + apply (P a). left. reflexivity.
      + intros ->. apply D. left. reflexivity.
    - destruct (short_escape r); [apply B|]. destruct ((r <? 32) || (r =? 127))%N; [apply B|].
      destruct (r <? 65536)%N; apply B.
  Qed.

  (* Where a reading that went wrong stops: beyond the name, or before its end and not at a dot. *)
  Definition astray (r rest : string) : Prop :=
    String.length r < String.length rest
    \/ exists a r', r = String a r' /\ a <> dot /\ String.length rest < String.length r.

  Lemma part_nodot : forall p, ~ In dot (list_ascii_of_string p) ->
    Forall (fun c => ~ In dot (list_ascii_of_string (chunk_bytes c))) (chunks p).
  Proof.
    intros p H. rewrite <- (chunks_bytes p) in H. revert H. generalize (chunks p) as l.
    induction l as [|c l IH]; intro H; constructor; cbn [map concat_str] in H; rewrite los_app in H.
    - intro K. apply H, in_or_app. left. exact K.
    - apply IH. intro K. apply H, in_or_app. right. exact K.
  Qed.

  Lemma astray_between : forall ps rest t r, Forall (fun p => ~ In dot (list_ascii_of_string p)) ps ->
    pg_ident_body (after ps rest) = Some (t, r) -> astray r rest.
  Proof.
    induction ps as [|p ps IH]; intros rest t r D H.
    - left. exact (ident_body_shrinks _ _ _ _ (le_n _) H).
    - inversion_clear D as [|? ? Dp Dps]. cbn [after pg_ident_body] in H.
      change (Ascii.eqb dot dquote) with false in H. rewrite Ascii.eqb_refl in H.
      unfold escaped in H. pose proof (chunks_wf p) as W. pose proof (part_nodot p Dp) as N.
      destruct (chunks p) as [|c l].
      + cbn [map concat_str append dq str1] in H. change (Ascii.eqb """" dquote) with true in H. cbn iota in H.
        destruct (pg_ident_body (after ps rest)) as [[t' r']|] eqn:E; [|discriminate]. injection H as <- <-.
        exact (IH _ _ _ Dps E).
      + inversion_clear W as [|? ? Wc _]. inversion_clear N as [|? ? Nc _].
        cbn [map concat_str] in H. rewrite sapp_assoc in H.
        destruct (chunk_head c (concat_str (map quote_chunk l) ++ dq ++ after ps rest) Wc Nc)
          as (a & s' & E & Q & P).
        assert (L : String.length rest < String.length (String a s')).
        { rewrite <- E, !slen_app. pose proof (after_longer ps rest). cbn. lia. }
        rewrite E in H. destruct (Ascii.eqb_spec a dquote); [congruence|]. injection H as <- <-.
        right. exists a, s'. auto.
  Qed.

  Lemma chunk_quote_cases : forall c, chunk_wf c ->
    quote_chunk c = String backslash dq \/ ~ In dquote (list_ascii_of_string (quote_chunk c)).
  Proof.
    intros c W.
    assert (D : (exists bs, c = CRune 34 bs) \/ ~ In dquote (list_ascii_of_string (chunk_bytes c))).
    { destruct c as [r bs|b]; cbn [chunk_bytes].
      - destruct (N.eqb_spec r 34) as [->|N]; [left; eauto|]. right. intro K.
        destruct (N.eqb_spec r 92) as [->|N2].
        + destruct W as (_ & _ & P). cbn in P. subst bs. destruct K as [K|[]]. discriminate.
        + destruct (chunk_plain_bytes r bs W N N2 dquote K). congruence.
      - right. intros [K|[]]. subst b. cbn in W. lia. }
    destruct D as [(bs & ->)|D].
    - left. destruct W as (_ & _ & P). cbn in P. subst bs. reflexivity.
    - right. apply chunk_no_quote; assumption.
  Qed.

  Lemma read_part : forall l ps rest t r, ends_name rest = true ->
    Forall chunk_wf l -> Forall (fun c => ~ In dot (list_ascii_of_string (chunk_bytes c))) l ->
    Forall (fun p => ~ In dot (list_ascii_of_string p)) ps ->
    pg_ident_body (concat_str (map quote_chunk l) ++ dq ++ after ps rest) = Some (t, r) ->
    (t = concat_str (map quote_chunk l) /\ r = after ps rest
     /\ Forall (fun c => ~ In dquote (list_ascii_of_string (quote_chunk c))) l)
    \/ astray r rest.
  Proof.
    induction l as [|c l IH]; intros ps rest t r Er W N D H.
    - left. cbn [map concat_str append dq str1 pg_ident_body] in H.
      change (Ascii.eqb """" dquote) with true in H. cbn iota in H.
      assert (Q : match after ps rest with String a _ => a <> dquote | "" => True end).
      { destruct ps as [|p ps]; cbn [after]; [|discriminate]. destruct rest as [|a rest]; [exact I|].
        cbn in Er. intros ->. cbn in Er. discriminate. }
      destruct (after ps rest) as [|a s]; [injection H as <- <-; auto|].
      destruct (Ascii.eqb_spec a dquote); [congruence|]. injection H as <- <-. auto.
    - inversion_clear W as [|? ? Wc Wl]. inversion_clear N as [|? ? Nc Nl].
      cbn [map concat_str] in *. rewrite sapp_assoc in H.
      destruct (chunk_quote_cases c Wc) as [Q|Q].
      + right. rewrite Q in H. cbn [append dq str1 pg_ident_body] in H.
        change (Ascii.eqb backslash dquote) with false in H. change (Ascii.eqb """" dquote) with true in H.
        cbn iota in H. destruct l as [|c' l].
        * cbn [map concat_str append] in H. change (Ascii.eqb """" dquote) with true in H. cbn iota in H.
          destruct (pg_ident_body (after ps rest)) as [[t' r']|] eqn:E; [|discriminate]. injection H as <- <-.
          exact (astray_between _ _ _ _ D E).
        * inversion_clear Wl as [|? ? Wc' _]. inversion_clear Nl as [|? ? Nc' _].
          cbn [map concat_str] in H. rewrite sapp_assoc in H.
          destruct (chunk_head c' (concat_str (map quote_chunk l) ++ String """" (after ps rest)) Wc' Nc')
            as (a & s' & E & Qa & Pa).
          assert (L : String.length rest < String.length (String a s')).
          { rewrite <- E, !slen_app. pose proof (after_longer ps rest). cbn. lia. }
          rewrite E in H. destruct (Ascii.eqb_spec a dquote); [congruence|]. injection H as <- <-.
          right. exists a, s'. auto.
      + destruct (ident_verbatim _ _ _ _ Q H) as (t' & H' & ->).
        destruct (IH _ _ _ _ Er Wl Nl D H') as [(-> & -> & F)|A]; [|right; exact A].
        left. auto.
  Qed.

  Lemma no_dquote_chunks : forall p, Forall (fun c => ~ In dquote (list_ascii_of_string (quote_chunk c))) (chunks p) ->
    ~ In dquote (list_ascii_of_string p).
  Proof.
    intros p H K. rewrite <- (chunks_bytes p) in K. pose proof (chunks_wf p) as W. revert W H K.
    generalize (chunks p) as l. induction l as [|c l IH]; intros W H K; [exact K|].
    inversion_clear W as [|? ? Wc Wl]. inversion_clear H as [|? ? Hc Hl].
    cbn [map concat_str] in K. rewrite los_app, in_app_iff in K. destruct K as [K|K]; [|exact (IH Wl Hl K)].
    apply Hc. destruct c as [r bs|b]; cbn [chunk_bytes quote_chunk] in *.
    - destruct (N.eqb_spec r 34) as [->|N1]; [cbn; right; exact K|].
      destruct (N.eqb_spec r 92) as [->|N2]; [cbn; right; exact K|].
      destruct (chunk_plain_bytes r bs Wc N1 N2 dquote K). congruence.
    - destruct K as [K|[]]. subst b. cbn in Wc. lia.
  Qed.

  Lemma name_exact_fuel : forall ps p n ids rest, ends_name rest = true ->
    Forall (fun p => ~ In dot (list_ascii_of_string p)) (p :: ps) ->
    pg_name_fuel n (String dquote (escaped p ++ dq ++ after ps rest)) = Some (ids, rest) ->
    Forall (fun p => p <> "" /\ ~ In dquote (list_ascii_of_string p)) (p :: ps).
  Proof.
    induction ps as [|p' ps IH]; intros p n ids rest Er D H;
      (destruct n as [|n]; [discriminate|]); cbn [pg_name_fuel pg_ident] in H; rewrite Ascii.eqb_refl in H;
      (destruct (pg_ident_body _) as [[i r]|] eqn:E in H; [|discriminate]);
      inversion_clear D as [|? ? Dp Dps];
      apply (read_part (chunks p) _ rest i r Er (chunks_wf p) (part_nodot p Dp) Dps) in E;
      fold (escaped p) in E; (destruct i as [|x i]; [discriminate|]).
    - assert (G : (r = rest /\ Forall (fun c => ~ In dquote (list_ascii_of_string (quote_chunk c))) (chunks p)
                   /\ escaped p <> "")
                  \/ astray r rest).
      { destruct E as [(Ei & -> & F)|A]; [left|right; exact A]. split; [reflexivity|]. split; [exact F|].
        rewrite <- Ei. discriminate. }
      destruct G as [(_ & F & Ne)|A].
      + constructor; [|constructor]. split; [intros ->; apply Ne; reflexivity|apply no_dquote_chunks, F].
      + exfalso. destruct A as [A|(a & r' & -> & Na & A)].
        * destruct r as [|b r]; [injection H as _ <-; cbn in A; lia|].
          destruct (Ascii.eqb b dot).
          { destruct (pg_name_fuel n r) as [[is r2]|] eqn:E2; [|discriminate]. injection H as _ ->.
            apply name_shrinks in E2. cbn in A. lia. }
          { injection H as _ <-. cbn in A. lia. }
        * destruct (Ascii.eqb_spec a dot); [congruence|]. injection H as _ <-. cbn in A. lia.
    - destruct E as [(Ei & -> & F)|A].
      + cbn [after] in H. rewrite Ascii.eqb_refl in H.
        destruct (pg_name_fuel n _) as [[is r2]|] eqn:E2 in H; [|discriminate]. injection H as _ ->.
        apply IH in E2; [|exact Er|exact Dps]. constructor; [|exact E2].
        split; [intros ->; discriminate Ei|apply no_dquote_chunks, F].
      + exfalso. destruct A as [A|(a & r' & -> & Na & A)].
        * destruct r as [|b r]; [injection H as _ <-; cbn in A; lia|].
          destruct (Ascii.eqb b dot).
          { destruct (pg_name_fuel n r) as [[is r2]|] eqn:E2; [|discriminate]. injection H as _ ->.
            apply name_shrinks in E2. cbn in A. lia. }
          { injection H as _ <-. cbn in A. lia. }
        * destruct (Ascii.eqb_spec a dot); [congruence|]. injection H as _ <-. cbn in A. lia.
  Qed.

  Lemma join_in : forall sep l a, In a (list_ascii_of_string (join_with (str1 sep) l)) ->
    a = sep \/ exists p, In p l /\ In a (list_ascii_of_string p).
  Proof.
    induction l as [|p [|q l] IH]; intros a H; [destruct H|right; exists p; split; [left; reflexivity|exact H]|].
    change (join_with (str1 sep) (p :: q :: l)) with (p ++ str1 sep ++ join_with (str1 sep) (q :: l)) in H.
    rewrite !los_app, !in_app_iff in H. destruct H as [H|[H|H]].
    - right. exists p. split; [left; reflexivity|exact H].
    - left. destruct H as [<-|[]]. reflexivity.
    - destruct (IH a H) as [K|(x & Hx & K)]; [left; exact K|]. right. exists x. split; [right; exact Hx|exact K].
  Qed.

  Lemma name_exact : forall s rest ids, ends_name rest = true -> pg_name (quote s ++ rest) = Some (ids, rest) ->
    ~ In dquote (list_ascii_of_string s) /\ ~ In "" (split_on "." s).
  Proof.
    intros s rest ids Er H. unfold pg_name, quote in H. pose proof (split_nonempty "." s) as N.
    pose proof (split_no_sep "." s) as D. pose proof (join_split "." s) as J.
    destruct (split_on "." s) as [|p ps]; [congruence|]. rewrite quote_after in H.
    apply name_exact_fuel in H; [|exact Er|apply Forall_forall; exact D]. rewrite Forall_forall in H. split.
    - intro K. rewrite <- J in K. apply join_in in K. destruct K as [K|(x & Hx & K)]; [discriminate|].
      exact (proj2 (H x Hx) K).
    - intro K. exact (proj1 (H _ K) eq_refl).
  Qed.

  (* The quoted text is longer than the part unless each character stands for itself. *)
  Lemma encode_short : forall r, String.length (encode_rune r) <= 4.
  Proof.
    intro r. unfold encode_rune.
    destruct (r <? 128)%N; [cbn; lia|]. destruct (r <? 2048)%N; [cbn; lia|].
    destruct (negb _); [cbn; lia|]. destruct (r <? 65536)%N; cbn; lia.
  Qed.

  Lemma hex_length : forall n r, String.length (hex_digits n r) = n.
  Proof. induction n as [|n IH]; intro r; [reflexivity|]. cbn [hex_digits String.length]. rewrite IH. reflexivity. Qed.

  Lemma quote_chunk_longer : forall c, chunk_wf c ->
    String.length (chunk_bytes c) <= String.length (quote_chunk c)
    /\ (plain_chunk c = false -> String.length (chunk_bytes c) < String.length (quote_chunk c)).
  Proof.
    intros [r bs|b] W; cbn [chunk_bytes quote_chunk plain_chunk].
    - destruct ((r =? 34)%N || (r =? 92)%N) eqn:E1; [cbn; lia|].
      destruct (is_print r) eqn:Ep; [split; [lia|]; intro K; exfalso; lia|].
      assert (L1 : (r < 128)%N -> String.length bs = 1).
      { intro L. destruct W as (_ & _ & P). replace (r <? 128)%N with true in P by lia. subst bs. reflexivity. }
      assert (L2 : String.length bs <= 4) by (destruct W as (<- & _); apply encode_short).
      destruct (short_escape r) as [a|] eqn:Es.
      + assert (r < 128)%N.
        { unfold short_escape in Es. repeat match type of Es with (if ?b then _ else _) = _ => destruct b eqn:?; [lia|] end.
          discriminate. }
        cbn. rewrite L1 by assumption. lia.
      + destruct ((r <? 32) || (r =? 127))%N eqn:E2; [|destruct (r <? 65536)%N];
          cbn [String.length]; rewrite hex_length; [rewrite L1 by lia|..]; lia.
    - cbn [String.length]. rewrite hex_length. cbn. lia.
  Qed.

  Lemma escaped_same : forall p, escaped p = p -> plain_text p = true.
  Proof.
    intros p H. unfold escaped, plain_text in *. pose proof (chunks_wf p) as W.
    assert (L : String.length (concat_str (map quote_chunk (chunks p)))
                = String.length (concat_str (map chunk_bytes (chunks p)))) by (rewrite chunks_bytes, H; reflexivity).
    clear H. revert W L. generalize (chunks p) as l.
    assert (G : forall l, Forall chunk_wf l -> String.length (concat_str (map chunk_bytes l))
                <= String.length (concat_str (map quote_chunk l))).
    { induction l as [|c l IH]; intro W; [reflexivity|]. inversion_clear W as [|? ? Wc Wl].
      cbn [map concat_str]. rewrite !slen_app. specialize (IH Wl). destruct (quote_chunk_longer c Wc). lia. }
    induction l as [|c l IH]; intros W L; [reflexivity|].
    inversion_clear W as [|? ? Wc Wl]. cbn [map concat_str forallb] in *. rewrite !slen_app in L.
    specialize (G l Wl). destruct (quote_chunk_longer c Wc) as [L1 L2]. rewrite IH by (assumption || lia).
    destruct (plain_chunk c); [reflexivity|]. specialize (L2 eq_refl). lia.
  Qed.

  Lemma plain_exact : forall s rest, ends_name rest = true ->
    pg_name (quote s ++ rest) = Some (split_on "." s, rest) -> plain_name s = true.
  Proof.
    intros s rest Er H. destruct (name_exact s rest _ Er H) as [Q E].
    rewrite (pg_name_no_quote s rest Q E Er) in H. injection H as H.
    unfold plain_name. revert H E. generalize (split_on "." s) as l. induction l as [|p l IH]; intros H E; [reflexivity|].
    cbn [map forallb] in *. injection H as Hp Hl.
    rewrite (escaped_same p Hp), IH by (exact Hl || (intro K; apply E; right; exact K)).
    destruct (String.eqb_spec p ""); [exfalso; apply E; left; congruence|reflexivity].
  Qed.
End Exact.
