(* Proofs for C07-C10 and C41. *)
From Coq Require Import ZifyBool ZifyN ZifyNat.
From Verif Require Export GoStrP PgLex Format.

(* ------------------------------------------------------------------------- *)
(* Undoing strconv.Quote                                                       *)
(* ------------------------------------------------------------------------- *)

Inductive ustate := UText | UEsc | UHex (n : nat) (rune : bool) (acc : N).

Definition unhex (a : ascii) : N :=
  (if byte a <? 58 then byte a - 48 else byte a - 87)%N.

Definition unshort (a : ascii) : ascii :=
  (if Ascii.eqb a "a" then "007" else if Ascii.eqb a "b" then "008"
   else if Ascii.eqb a "f" then "012" else if Ascii.eqb a "n" then "010"
   else if Ascii.eqb a "r" then "013" else if Ascii.eqb a "t" then "009"
   else if Ascii.eqb a "v" then "011" else a)%char.

Fixpoint undo (st : ustate) (s : string) : string :=
  match s with
  | EmptyString => ""
  | String a s' =>
    match st with
    | UText => if Ascii.eqb a dquote then undo UText s'
               else if Ascii.eqb a backslash then undo UEsc s'
               else String a (undo UText s')
    | UEsc => if Ascii.eqb a "x" then undo (UHex 2 false 0) s'
              else if Ascii.eqb a "u" then undo (UHex 4 true 0) s'
              else if Ascii.eqb a "U" then undo (UHex 8 true 0) s'
              else String (unshort a) (undo UText s')
    | UHex n rune acc =>
      let acc' := (16 * acc + unhex a)%N in
      match n with
      | S (S n') => undo (UHex (S n') rune acc') s'
      | _ => (if rune then encode_rune acc' else str1 (chr acc')) ++ undo UText s'
      end
    end
  end.

Lemma unhex_digit : forall n, (n < 16)%N -> unhex (hex_digit n) = n.
Proof.
  intros n H. unfold unhex, hex_digit. destruct (n <? 10)%N eqn:E; rewrite byte_chr by lia.
  - replace (48 + n <? 58)%N with true by lia. lia.
  - replace (87 + n <? 58)%N with false by lia. lia.
Qed.

Lemma undo_hex : forall n rune r acc rest,
  undo (UHex (S n) rune acc) (hex_digits (S n) r ++ rest)
  = (if rune then encode_rune (acc * 16 ^ N.of_nat (S n) + r mod 16 ^ N.of_nat (S n))
     else str1 (chr (acc * 16 ^ N.of_nat (S n) + r mod 16 ^ N.of_nat (S n))))%N
    ++ undo UText rest.
Proof.
  induction n as [|n IH]; intros rune r acc rest.
  - change (hex_digits 1 r) with (String (hex_digit ((r / (16 ^ N.of_nat 0)) mod 16)) "").
    cbn [append undo]. rewrite unhex_digit by lia.
    replace (16 * acc + (r / 16 ^ N.of_nat 0) mod 16)%N
      with (acc * 16 ^ N.of_nat 1 + r mod 16 ^ N.of_nat 1)%N; [reflexivity|].
    change (16 ^ N.of_nat 1)%N with 16%N. change (16 ^ N.of_nat 0)%N with 1%N. rewrite N.div_1_r. lia.
  - change (hex_digits (S (S n)) r)
      with (String (hex_digit ((r / (16 ^ N.of_nat (S n))) mod 16)) (hex_digits (S n) r)).
    cbn [append]. cbn [undo]. rewrite unhex_digit by lia. rewrite IH.
    set (p := (16 ^ N.of_nat (S n))%N).
    replace (16 ^ N.of_nat (S (S n)))%N with (16 * p)%N.
    2:{ subst p. rewrite (Nat2N.inj_succ (S n)), N.pow_succ_r'. reflexivity. }
    assert (Hp : (p <> 0)%N) by (subst p; apply N.pow_nonzero; discriminate).
    assert (E : ((16 * acc + (r / p) mod 16) * p + r mod p = acc * (16 * p) + r mod (16 * p))%N).
    { rewrite (N.mul_comm 16 p), N.mod_mul_r by (exact Hp || discriminate). lia. }
    rewrite E. reflexivity.
Qed.

Lemma undo_plain : forall bs rest,
  (forall a, In a (list_ascii_of_string bs) -> a <> dquote /\ a <> backslash) ->
  undo UText (bs ++ rest) = bs ++ undo UText rest.
Proof.
  induction bs as [|a bs IH]; intros rest H; [reflexivity|]. cbn [append undo].
  destruct (H a (or_introl eq_refl)) as [H1 H2].
  destruct (Ascii.eqb_spec a dquote); [congruence|]. destruct (Ascii.eqb_spec a backslash); [congruence|].
  rewrite IH; [reflexivity|]. intros b Hb. apply H. right. exact Hb.
Qed.

Lemma byte_neq : forall a b, byte a <> byte b -> a <> b.
Proof. intros a b H ->. apply H. reflexivity. Qed.

Section Undo.
  Context {O : Oracle}.

  (* A chunk other than the two ASCII characters that are escaped. *)
  Lemma chunk_plain_bytes : forall r bs, chunk_wf (CRune r bs) -> (r <> 34)%N -> (r <> 92)%N ->
    forall a, In a (list_ascii_of_string bs) -> a <> dquote /\ a <> backslash.
  Proof.
    intros r bs [E [V P]] N1 N2 a Ha.
    destruct (r <? 128)%N eqn:L.
    - subst bs. rewrite P in Ha. destruct Ha as [<-|[]].
      split; apply byte_neq; rewrite byte_chr by lia; assumption.
    - specialize (P a Ha). split; apply byte_neq;
        [change (byte dquote) with 34%N|change (byte backslash) with 92%N]; lia.
  Qed.

  Lemma undo_chunk : forall c rest, chunk_wf c ->
    undo UText (quote_chunk c ++ rest) = chunk_bytes c ++ undo UText rest.
  Proof.
    intros [r bs|b] rest W; cbn [quote_chunk chunk_bytes].
    - destruct ((r =? 34)%N || (r =? 92)%N) eqn:E1.
      + assert (Hb : bs = str1 (chr r)).
        { destruct W as [_ [_ P]]. replace (r <? 128)%N with true in P by lia. exact P. }
        subst bs. assert (D : r = 34%N \/ r = 92%N) by lia. destruct D as [-> | ->]; reflexivity.
      + assert (H1 : (r <> 34)%N) by lia. assert (H2 : (r <> 92)%N) by lia.
        destruct (is_print r) eqn:Ep.
        * apply undo_plain. exact (chunk_plain_bytes r bs W H1 H2).
        * destruct (short_escape r) as [a|] eqn:Es.
          { assert (Hb : bs = str1 (chr r)).
            { destruct W as [_ [_ P]]. unfold short_escape in Es.
              replace (r <? 128)%N with true in P; [exact P|].
              repeat match type of Es with (if ?b then _ else _) = _ => destruct b eqn:?; [lia|] end.
              discriminate. }
            subst bs. unfold short_escape in Es.
            repeat match type of Es with
              (if (r =? ?k)%N then _ else _) = _ =>
                destruct (r =? k)%N eqn:K;
                [apply N.eqb_eq in K; subst r; injection Es as <-; reflexivity|clear K] end.
            discriminate. }
          destruct W as [E [V P]]. unfold valid_rune, between in V.
          destruct ((r <? 32) || (r =? 127))%N eqn:E2.
          { replace (r <? 128)%N with true in P by lia. subst bs. rewrite P.
            cbn [append undo]. cbn [Ascii.eqb]. change (Ascii.eqb bslash dquote) with false.
            change (Ascii.eqb bslash backslash) with true. cbn iota.
            change (Ascii.eqb "x" "x") with true. cbn iota.
            rewrite undo_hex. rewrite N.mul_0_l, N.add_0_l.
            rewrite N.mod_small by (change (16 ^ N.of_nat 2)%N with 256%N; lia). reflexivity. }
          destruct (r <? 65536)%N eqn:E3.
          { cbn [append undo]. change (Ascii.eqb bslash dquote) with false.
            change (Ascii.eqb bslash backslash) with true. cbn iota.
            change (Ascii.eqb "u" "x") with false. change (Ascii.eqb "u" "u") with true. cbn iota.
            rewrite undo_hex. rewrite N.mul_0_l, N.add_0_l.
            rewrite N.mod_small by (change (16 ^ N.of_nat 4)%N with 65536%N; lia). rewrite E. reflexivity. }
          { cbn [append undo]. change (Ascii.eqb bslash dquote) with false.
            change (Ascii.eqb bslash backslash) with true. cbn iota.
            change (Ascii.eqb "U" "x") with false. change (Ascii.eqb "U" "u") with false.
            change (Ascii.eqb "U" "U") with true. cbn iota.
            rewrite undo_hex. rewrite N.mul_0_l, N.add_0_l.
            rewrite N.mod_small by (change (16 ^ N.of_nat 8)%N with 4294967296%N; lia). rewrite E. reflexivity. }
    - cbn [append undo]. change (Ascii.eqb bslash dquote) with false.
      change (Ascii.eqb bslash backslash) with true. cbn iota.
      change (Ascii.eqb "x" "x") with true. cbn iota.
      rewrite undo_hex. rewrite N.mul_0_l, N.add_0_l. pose proof (byte_lt b).
      rewrite N.mod_small by (change (16 ^ N.of_nat 2)%N with 256%N; lia). rewrite chr_byte. reflexivity.
  Qed.

  Lemma undo_chunks : forall l rest, Forall chunk_wf l ->
    undo UText (concat_str (map quote_chunk l) ++ rest)
    = concat_str (map chunk_bytes l) ++ undo UText rest.
  Proof.
    intros l rest H. induction H as [|c l Hc H IH]; [reflexivity|]. cbn [map concat_str].
    rewrite !sapp_assoc, undo_chunk by exact Hc. rewrite IH. reflexivity.
  Qed.

  Lemma undo_go_quote : forall s rest, undo UText (go_quote s ++ rest) = s ++ undo UText rest.
  Proof.
    intros s rest. unfold go_quote, dq, str1. cbn [append]. rewrite !sapp_assoc. cbn [append].
    change (undo UText (String """" ?x)) with (undo UText x).
    rewrite undo_chunks by apply chunks_wf. rewrite chunks_bytes. reflexivity.
  Qed.

  Lemma undo_join : forall l rest, l <> [] ->
    undo UText (join_with "." (map go_quote l) ++ rest) = join_with "." l ++ undo UText rest.
  Proof.
    induction l as [|p [|p' l] IH]; intros rest H; [congruence| |].
    - apply undo_go_quote.
    - change (join_with "." (map go_quote (p :: p' :: l)))
        with (go_quote p ++ "." ++ join_with "." (map go_quote (p' :: l))).
      change (join_with "." (p :: p' :: l)) with (p ++ "." ++ join_with "." (p' :: l)).
      rewrite !sapp_assoc, undo_go_quote. f_equal. cbn [append].
      change (undo UText (String "." ?x)) with (String "." (undo UText x)).
      rewrite IH by discriminate. reflexivity.
  Qed.

  Lemma undo_quote : forall s, undo UText (quote s) = s.
  Proof.
    intro s. unfold quote. rewrite <- (sapp_nil (join_with _ _)), undo_join by apply split_nonempty.
    cbn [undo]. rewrite sapp_nil. apply (join_split "."%char).
  Qed.

  Lemma quote_inj : forall s t, quote s = quote t -> s = t.
  Proof. intros s t H. rewrite <- (undo_quote s), H. apply undo_quote. Qed.
End Undo.

(* ------------------------------------------------------------------------- *)
(* Names that PostgreSQL reads back                                            *)
(* ------------------------------------------------------------------------- *)

Section Plain.
  Context {O : Oracle}.

  (* Printable characters other than double quote and backslash, in valid UTF-8. *)
  Definition plain_chunk (c : chunk) : bool :=
    match c with
    | CRune r _ => is_print r && negb (r =? 34)%N && negb (r =? 92)%N
    | CBad _ => false
    end.
  Definition plain_text (s : string) : bool := forallb plain_chunk (chunks s).
  Definition plain_name (s : string) : bool :=
    forallb (fun p => plain_text p && negb (String.eqb p "")) (split_on "." s).

  Lemma plain_quote : forall s, plain_text s = true -> concat_str (map quote_chunk (chunks s)) = s.
  Proof.
    intros s H. rewrite <- (chunks_bytes s) at 2. f_equal. apply map_ext_in. intros c Hc.
    unfold plain_text in H. rewrite forallb_forall in H. specialize (H c Hc).
    destruct c as [r bs|b]; [|discriminate]. cbn in *. rewrite !andb_true_iff, !negb_true_iff in H.
    destruct H as [[Hp H1] H2]. rewrite H1, H2, Hp. reflexivity.
  Qed.

  Lemma plain_no_quote : forall s, plain_text s = true ->
    ~ In dquote (list_ascii_of_string s).
  Proof.
    intros s H Hin. rewrite <- (chunks_bytes s) in Hin. unfold plain_text in H.
    pose proof (chunks_wf s) as W. revert H W Hin. generalize (chunks s) as l.
    induction l as [|c l IH]; intros H W Hin; [exact Hin|]. cbn [map concat_str forallb] in *.
    apply andb_true_iff in H. destruct H as [H1 H2]. inversion_clear W as [|? ? Wc Wl].
    rewrite los_app, in_app_iff in Hin. destruct Hin as [Hin|Hin]; [|apply IH; assumption].
    destruct c as [r bs|b]; [|discriminate]. cbn [plain_chunk chunk_bytes] in *.
    rewrite !andb_true_iff, !negb_true_iff in H1. destruct H1 as [[_ H1] H2'].
    destruct (chunk_plain_bytes r bs Wc ltac:(lia) ltac:(lia) dquote Hin) as [Q _]. congruence.
  Qed.

  Lemma ident_body : forall s rest, ~ In dquote (list_ascii_of_string s) ->
    match rest with String a _ => a <> dquote | "" => True end ->
    pg_ident_body (s ++ dq ++ rest) = Some (s, rest).
  Proof.
    induction s as [|a s IH]; intros rest H Hr.
    - cbn [append]. unfold dq, str1. cbn. destruct rest as [|b rest]; [reflexivity|].
      destruct (Ascii.eqb_spec b dquote); [congruence|reflexivity].
    - cbn [append pg_ident_body]. destruct (Ascii.eqb_spec a dquote) as [->|_].
      + exfalso. apply H. left. reflexivity.
      + rewrite IH; [reflexivity| |exact Hr]. intro Hin. apply H. right. exact Hin.
  Qed.

  Lemma pg_ident_plain : forall s rest, plain_text s = true -> s <> "" ->
    match rest with String a _ => a <> dquote | "" => True end ->
    pg_ident (go_quote s ++ rest) = Some (s, rest).
  Proof.
    intros s rest H N Hr. unfold go_quote. rewrite plain_quote by exact H. rewrite !sapp_assoc.
    unfold dq at 1, str1. cbn [append]. unfold pg_ident. change (Ascii.eqb """" dquote) with true. cbn iota.
    rewrite ident_body by (apply plain_no_quote, H || exact Hr). destruct s; [congruence|reflexivity].
  Qed.

  Lemma pg_name_join : forall l n rest, l <> [] -> length l <= n ->
    forallb (fun p => plain_text p && negb (String.eqb p "")) l = true -> ends_name rest = true ->
    pg_name_fuel n (join_with "." (map go_quote l) ++ rest) = Some (l, rest).
  Proof.
    induction l as [|p [|p' l] IH]; intros n rest N Hn H Hr; [congruence| |];
      (destruct n as [|n]; [cbn in Hn; lia|]); cbn [pg_name_fuel].
    - cbn in H. rewrite andb_true_r, andb_true_iff, negb_true_iff in H. destruct H as [H1 H2].
      apply String.eqb_neq in H2. cbn [map join_with].
      rewrite pg_ident_plain; [|exact H1|exact H2|].
      + destruct rest as [|a rest]; [reflexivity|]. cbn in Hr. destruct (Ascii.eqb a dot); [discriminate|].
        reflexivity.
      + destruct rest as [|a rest]; [exact I|]. cbn in Hr. intros ->. cbn in Hr. discriminate.
    - change (forallb (fun p => plain_text p && negb (String.eqb p "")) (p :: p' :: l))
        with ((plain_text p && negb (String.eqb p ""))
              && forallb (fun p => plain_text p && negb (String.eqb p "")) (p' :: l)) in H.
      apply andb_true_iff in H. destruct H as [H1 H]. apply andb_true_iff in H1. destruct H1 as [H1 H2].
      rewrite negb_true_iff in H2. apply String.eqb_neq in H2.
      change (join_with "." (map go_quote (p :: p' :: l)))
        with (go_quote p ++ "." ++ join_with "." (map go_quote (p' :: l))).
      rewrite !sapp_assoc. rewrite pg_ident_plain; [|exact H1|exact H2|cbn; discriminate].
      cbn [append]. change (Ascii.eqb "." dot) with true. cbn iota.
      rewrite IH; [reflexivity|discriminate|cbn in *; lia|exact H|exact Hr].
  Qed.

  Lemma pg_name_quote : forall s rest, plain_name s = true -> ends_name rest = true ->
    pg_name (quote s ++ rest) = Some (split_on "." s, rest).
  Proof.
    intros s rest H Hr. unfold pg_name, quote. apply pg_name_join; [apply split_nonempty| |exact H|exact Hr].
    rewrite slen_app.
    (* the name has one character more than its number of parts *)
    assert (G : forall l, l <> [] -> S (length l) <= String.length (join_with "." (map go_quote l))).
    { clear. induction l as [|p [|p' l] IH]; intro N; [congruence| |].
      - cbn [map join_with length]. unfold go_quote, dq, str1. rewrite !slen_app. cbn. lia.
      - change (join_with "." (map go_quote (p :: p' :: l)))
          with (go_quote p ++ "." ++ join_with "." (map go_quote (p' :: l))).
        rewrite !slen_app. specialize (IH ltac:(discriminate)). cbn [length String.length] in *. lia. }
    specialize (G (split_on "." s) (split_nonempty _ _)). lia.
  Qed.

  (* A double quote in a name ends the identifier that PostgreSQL reads. *)
  Lemma quote_breaks : forall p u rest,
    plain_text p = true -> plain_text u = true ->
    ~ In dot (list_ascii_of_string p) -> ~ In dot (list_ascii_of_string u) -> u <> "" ->
    pg_name (quote (p ++ dq ++ u) ++ rest) = Some ([p ++ str1 backslash], u ++ dq ++ rest).
  Proof.
    intros p u rest Hp Hu Dp Du Nu. unfold quote.
    rewrite split_none.
    2:{ rewrite !los_app, !in_app_iff. intros [H|[H|H]]; [exact (Dp H)| |exact (Du H)].
        destruct H as [H|[]]. discriminate. }
    cbn [map join_with]. unfold go_quote. unfold dq at 2, str1. cbn [append].
    rewrite chunks_cut, chunks_ascii by (cbn; lia).
    rewrite map_app, concat_str_app. cbn [map concat_str].
    rewrite (plain_quote p Hp), (plain_quote u Hu).
    assert (Nq : u <> "" -> match u ++ dq ++ rest with String a _ => a <> dquote /\ a <> dot | "" => True end).
    { intros _. destruct u as [|a u]; [congruence|]. cbn [append].
      split; intros ->; [apply (plain_no_quote _ Hu)|apply Du]; left; reflexivity. }
    specialize (Nq Nu). unfold pg_name.
    assert (E : (dq ++ (p ++ quote_chunk (CRune (byte """") (str1 """")) ++ u) ++ dq) ++ rest
                = String dquote (((p ++ str1 backslash) ++ dq ++ (u ++ dq ++ rest)))).
    { rewrite !sapp_assoc. reflexivity. }
    rewrite E. cbn [String.length pg_name_fuel]. unfold pg_ident. rewrite Ascii.eqb_refl.
    rewrite ident_body.
    - change (String backslash "") with (str1 backslash).
      destruct (p ++ str1 backslash) as [|x y] eqn:Z; [destruct p; discriminate|].
      destruct (u ++ dq ++ rest) as [|a r]; [reflexivity|]. destruct Nq as [_ Nq].
      destruct (Ascii.eqb_spec a dot); [congruence|reflexivity].
    - rewrite los_app, in_app_iff. intros [H|H]; [exact (plain_no_quote p Hp H)|].
      destruct H as [H|[]]. discriminate.
    - destruct (u ++ dq ++ rest); [exact I|apply Nq].
  Qed.
End Plain.

(* ------------------------------------------------------------------------- *)
(* String literals                                                             *)
(* ------------------------------------------------------------------------- *)

Lemma body_plain : forall esc bs rest t r,
  (forall a, In a (list_ascii_of_string bs) -> a <> squote /\ a <> backslash) ->
  pg_string_body esc rest = Some (t, r) ->
  pg_string_body esc (bs ++ rest) = Some (bs ++ t, r).
Proof.
  induction bs as [|a bs IH]; intros rest t r H E; [exact E|]. cbn [append pg_string_body].
  destruct (H a (or_introl eq_refl)) as [H1 H2].
  destruct (Ascii.eqb_spec a squote); [congruence|]. destruct (Ascii.eqb_spec a backslash); [congruence|].
  rewrite andb_false_r. erewrite IH; [reflexivity| |exact E]. intros b Hb. apply H. right. exact Hb.
Qed.

Lemma encode_high : forall r, (128 <= r)%N ->
  forall a, In a (list_ascii_of_string (encode_rune r)) -> (128 <= byte a)%N.
Proof.
  intros r H a. unfold encode_rune, valid_rune, between.
  replace (r <? 128)%N with false by lia.
  destruct (r <? 2048)%N eqn:E2.
  { cbn [list_ascii_of_string str1 In]. intros [<-|[<-|[]]]; rewrite byte_chr by lia; lia. }
  destruct (negb _) eqn:E3.
  { cbn [list_ascii_of_string str1 In]. intros [<-|[<-|[<-|[]]]]; rewrite byte_chr by lia; lia. }
  destruct (r <? 65536)%N eqn:E4.
  { cbn [list_ascii_of_string str1 In]. intros [<-|[<-|[<-|[]]]]; rewrite byte_chr by lia; lia. }
  cbn [list_ascii_of_string str1 In]. intros [<-|[<-|[<-|[<-|[]]]]]; rewrite byte_chr by lia; lia.
Qed.

Lemma format_rune_read : forall r rest t q,
  pg_string_body true rest = Some (t, q) ->
  pg_string_body true (format_rune r ++ rest) = Some (encode_rune r ++ t, q).
Proof.
  intros r rest t q E. unfold format_rune.
  repeat match goal with
    |- context [if (r =? ?k)%N then _ else _] =>
      destruct (N.eqb_spec r k) as [->|?];
      [cbn [append pg_string_body];
       repeat match goal with |- context [Ascii.eqb ?a ?b] =>
         let v := eval vm_compute in (Ascii.eqb a b) in change (Ascii.eqb a b) with v end;
       cbn [andb]; rewrite E; reflexivity|] end.
  destruct (r <? 128)%N eqn:L.
  - unfold encode_rune. rewrite L. unfold str1. apply body_plain; [|exact E].
    intros a [<-|[]]. split; apply byte_neq; rewrite byte_chr by lia; assumption.
  - apply body_plain; [|exact E]. intros a Ha. apply encode_high in Ha; [|lia].
    split; apply byte_neq; [change (byte squote) with 39%N|change (byte backslash) with 92%N]; lia.
Qed.

Lemma format_string_read : forall s rest, ends_string rest = true ->
  pg_string true (format_string s ++ rest) = Some (concat_str (map encode_rune (runes s)), rest).
Proof.
  intros s rest Hr. unfold format_string. rewrite !sapp_assoc. cbn [append pg_string].
  change (Ascii.eqb "'" squote) with true. cbn iota.
  generalize (runes s) as l. induction l as [|r l IH]; cbn [map concat_str append].
  - cbn [pg_string_body]. change (Ascii.eqb "'" squote) with true. cbn iota.
    destruct rest as [|b rest]; [reflexivity|]. cbn in Hr. destruct (Ascii.eqb b squote); [discriminate|reflexivity].
  - rewrite sapp_assoc. apply format_rune_read, IH.
Qed.

(* ------------------------------------------------------------------------- *)
(* Names without double quote stay inside their quotes                          *)
(* ------------------------------------------------------------------------- *)

Section NoQuote.
  Context {O : Oracle}.

  Lemma hex_no_quote : forall n r, ~ In dquote (list_ascii_of_string (hex_digits n r)).
  Proof.
    induction n as [|n IH]; intros r H; [exact H|]. cbn [hex_digits list_ascii_of_string In] in H.
    destruct H as [H|H]; [|exact (IH r H)].
    apply (f_equal byte) in H. unfold hex_digit in H. change (byte dquote) with 34%N in H.
    set (d := ((r / 16 ^ N.of_nat n) mod 16)%N) in *.
    assert (d < 16)%N by (subst d; apply N.mod_lt; discriminate).
    destruct (d <? 10)%N; rewrite byte_chr in H by lia; lia.
  Qed.

  Lemma chunk_no_quote : forall c, chunk_wf c -> ~ In dquote (list_ascii_of_string (chunk_bytes c)) ->
    ~ In dquote (list_ascii_of_string (quote_chunk c)).
  Proof.
    intros [r bs|b] W H; cbn [quote_chunk chunk_bytes] in *.
    - destruct ((r =? 34)%N || (r =? 92)%N).
      + cbn. intros [E|E]; [discriminate|exact (H E)].
      + destruct (is_print r); [exact H|].
        assert (P : forall x y, Ascii.eqb x dquote = false -> ~ In dquote (list_ascii_of_string y) ->
                      ~ In dquote (list_ascii_of_string (String bslash (String x y)))).
        { intros x y Hx Hy [E|[E|E]]; [discriminate| |exact (Hy E)].
          subst x. rewrite Ascii.eqb_refl in Hx. discriminate. }
        destruct (short_escape r) as [a|] eqn:Es.
        { apply P; [|intros []]. unfold short_escape in Es.
          repeat match type of Es with (if ?x then _ else _) = _ => destruct x; [injection Es as <-; reflexivity|] end.
          discriminate. }
        destruct ((r <? 32) || (r =? 127))%N; [apply P; [reflexivity|apply hex_no_quote]|].
        destruct (r <? 65536)%N; (apply P; [reflexivity|apply hex_no_quote]).
    - intros [E|[E|E]]; [discriminate|discriminate|exact (hex_no_quote _ _ E)].
  Qed.

  Lemma chunks_no_quote : forall s, ~ In dquote (list_ascii_of_string s) ->
    ~ In dquote (list_ascii_of_string (concat_str (map quote_chunk (chunks s)))).
  Proof.
    intros s H. rewrite <- (chunks_bytes s) in H. pose proof (chunks_wf s) as W. revert W H.
    generalize (chunks s) as l. induction l as [|c l IH]; intros W H Hin; [exact Hin|].
    cbn [map concat_str] in *. rewrite los_app in *. rewrite in_app_iff in Hin.
    inversion_clear W as [|? ? Wc Wl]. destruct Hin as [Hin|Hin].
    - revert Hin. apply chunk_no_quote; [exact Wc|]. intro K. apply H. apply in_or_app. left. exact K.
    - revert Hin. apply IH; [exact Wl|]. intro K. apply H. apply in_or_app. right. exact K.
  Qed.

  Lemma concat_empty : forall s, concat_str (map quote_chunk (chunks s)) = "" -> s = "".
  Proof.
    intros s H. pose proof (undo_chunks (chunks s) "" (chunks_wf s)) as U.
    rewrite H, chunks_bytes in U. cbn in U. rewrite sapp_nil in U. symmetry. exact U.
  Qed.

  (* The body of the quoted text of one part. *)
  Definition escaped (p : string) : string := concat_str (map quote_chunk (chunks p)).

  Lemma pg_ident_escaped : forall p rest, ~ In dquote (list_ascii_of_string p) -> p <> "" ->
    match rest with String a _ => a <> dquote | "" => True end ->
    pg_ident (go_quote p ++ rest) = Some (escaped p, rest).
  Proof.
    intros p rest H N Hr. unfold go_quote. rewrite !sapp_assoc. unfold dq at 1, str1. cbn [append].
    unfold pg_ident. change (Ascii.eqb """" dquote) with true. cbn iota. fold (escaped p).
    rewrite ident_body; [|apply chunks_no_quote, H|exact Hr].
    destruct (escaped p) eqn:E; [|reflexivity]. apply concat_empty in E. congruence.
  Qed.

  Lemma pg_name_escaped : forall l n rest, l <> [] -> length l <= n ->
    (forall p, In p l -> p <> "" /\ ~ In dquote (list_ascii_of_string p)) -> ends_name rest = true ->
    pg_name_fuel n (join_with "." (map go_quote l) ++ rest) = Some (map escaped l, rest).
  Proof.
    induction l as [|p [|p' l] IH]; intros n rest N Hn H Hr; [congruence| |];
      (destruct n as [|n]; [cbn in Hn; lia|]); cbn [pg_name_fuel].
    - destruct (H p (or_introl eq_refl)) as [H2 H1]. cbn [map join_with].
      rewrite pg_ident_escaped; [|exact H1|exact H2|].
      + destruct rest as [|a rest]; [reflexivity|]. cbn in Hr. destruct (Ascii.eqb a dot); [discriminate|].
        reflexivity.
      + destruct rest as [|a rest]; [exact I|]. cbn in Hr. intros ->. cbn in Hr. discriminate.
    - destruct (H p (or_introl eq_refl)) as [H2 H1].
      change (join_with "." (map go_quote (p :: p' :: l)))
        with (go_quote p ++ "." ++ join_with "." (map go_quote (p' :: l))).
      rewrite !sapp_assoc. rewrite pg_ident_escaped; [|exact H1|exact H2|cbn; discriminate].
      cbn [append]. change (Ascii.eqb "." dot) with true. cbn iota.
      rewrite IH; [reflexivity|discriminate|cbn in *; lia| |exact Hr].
      intros q Hq. apply H. right. exact Hq.
  Qed.

  Lemma split_in : forall sep s p a, In p (split_on sep s) -> In a (list_ascii_of_string p) ->
    In a (list_ascii_of_string s).
  Proof.
    intros sep s. induction s as [|b s IH]; intros p a Hp Ha.
    - destruct Hp as [<-|[]]. exact Ha.
    - cbn [split_on] in Hp. pose proof (split_nonempty sep s) as N.
      destruct (split_on sep s) as [|q qs] eqn:E; [congruence|].
      destruct (Ascii.eqb b sep).
      + destruct Hp as [<-|Hp]; [destruct Ha|]. right. exact (IH p a Hp Ha).
      + destruct Hp as [<-|Hp]; [|right; apply (IH p a); [right; exact Hp|exact Ha]].
        destruct Ha as [<-|Ha]; [left; reflexivity|]. right. apply (IH q a); [left; reflexivity|exact Ha].
  Qed.

  Lemma pg_name_no_quote : forall s rest,
    ~ In dquote (list_ascii_of_string s) -> ~ In "" (split_on "." s) -> ends_name rest = true ->
    pg_name (quote s ++ rest) = Some (map escaped (split_on "." s), rest).
  Proof.
    intros s rest H He Hr. unfold pg_name, quote. apply pg_name_escaped; [apply split_nonempty| | |exact Hr].
    - rewrite slen_app.
      assert (G : forall l, l <> [] -> S (length l) <= String.length (join_with "." (map go_quote l))).
      { clear. induction l as [|p [|p' l] IH]; intro N; [congruence| |].
        - cbn [map join_with length]. unfold go_quote, dq, str1. rewrite !slen_app. cbn. lia.
        - change (join_with "." (map go_quote (p :: p' :: l)))
            with (go_quote p ++ "." ++ join_with "." (map go_quote (p' :: l))).
          rewrite !slen_app. specialize (IH ltac:(discriminate)). cbn [length String.length] in *. lia. }
      specialize (G (split_on "." s) (split_nonempty _ _)). lia.
    - intros p Hp. split; [intros ->; exact (He Hp)|].
      intro Hq. exact (H (split_in _ _ _ _ Hp Hq)).
  Qed.
End NoQuote.
