(* C22 and C30 for texts given as Unicode characters: what counts as white space, and that no
   character is broken up, stated with the encoding of RFC 3629 and the list of Unicode. *)
From Coq Require Import ZifyBool ZifyN ZifyNat.
From Verif Require Import GoStrP LexerP ConvP PropsConv PropsLex.

Ltac Zify.zify_post_hook ::= Z.div_mod_to_equations.

(* ------------------------------------------------------------------------- *)
(* Specification                                                               *)
(* ------------------------------------------------------------------------- *)

(* Unicode scalar values, and their UTF-8 bytes (RFC 3629, section 3). *)
Definition character (r : N) : Prop := (r < 55296 \/ 57344 <= r < 1114112)%N.
Definition utf8_bytes (r : N) : list N :=
  (if r <? 128 then [r]
   else if r <? 2048 then [192 + r / 64; 128 + r mod 64]
   else if r <? 65536 then [224 + r / 4096; 128 + r / 64 mod 64; 128 + r mod 64]
   else [240 + r / 262144; 128 + r / 4096 mod 64; 128 + r / 64 mod 64; 128 + r mod 64])%N.
Definition utf8 (rs : list N) : string := string_of_list_ascii (map ascii_of_N (flat_map utf8_bytes rs)).

(* The characters with the Unicode property White_Space. *)
Definition white_space : list N :=
  [9; 10; 11; 12; 13; 32; 133; 160; 5760; 8192; 8193; 8194; 8195; 8196; 8197; 8198; 8199; 8200; 8201; 8202; 8232; 8233;
   8239; 8287; 12288]%N.
Definition white (r : N) : bool := existsb (N.eqb r) white_space.

(* ------------------------------------------------------------------------- *)
(* Facts                                                                       *)
(* ------------------------------------------------------------------------- *)

Definition utf8_char (r : N) : string := string_of_list_ascii (map ascii_of_N (utf8_bytes r)).

Lemma text_app : forall a b, string_of_list_ascii (a ++ b)%list = string_of_list_ascii a ++ string_of_list_ascii b.
Proof. induction a as [|x a IH]; intro b; [reflexivity|]. cbn [app string_of_list_ascii append]. rewrite IH. reflexivity. Qed.
Lemma utf8_cons : forall r rs, utf8 (r :: rs) = utf8_char r ++ utf8 rs.
Proof. intros r rs. unfold utf8, utf8_char. cbn [flat_map]. rewrite map_app, text_app. reflexivity. Qed.
Lemma utf8_app : forall a b, utf8 (a ++ b)%list = utf8 a ++ utf8 b.
Proof. intros a b. unfold utf8. rewrite flat_map_app, map_app, text_app. reflexivity. Qed.

Lemma chunks_char : forall r s, character r -> chunks (utf8_char r ++ s) = CRune r (utf8_char r) :: chunks s.
Proof.
  intros r s H. unfold character in H. unfold utf8_char, utf8_bytes.
  destruct (N.ltb_spec r 128) as [L1|L1]; [|destruct (N.ltb_spec r 2048) as [L2|L2]; [|destruct (N.ltb_spec r 65536) as [L3|L3]]];
    cbn [map string_of_list_ascii append].
  - fold (chr r). cbn [chunks]. rewrite byte_chr by lia. replace (r <? 128)%N with true by lia. reflexivity.
  - fold (chr (192 + r / 64)%N) (chr (128 + r mod 64)%N). cbn [chunks].
    rewrite !byte_chr by lia. replace (192 + r / 64 <? 128)%N with false by lia.
    replace (between 194 223 (192 + r / 64) && is_cont (128 + r mod 64))%bool with true by (unfold between, is_cont, between; lia).
    unfold str1. f_equal. f_equal. unfold rune2. lia.
  - fold (chr (224 + r / 4096)%N) (chr (128 + r / 64 mod 64)%N) (chr (128 + r mod 64)%N). cbn [chunks].
    rewrite !byte_chr by lia. replace (224 + r / 4096 <? 128)%N with false by lia.
    replace (between 194 223 (224 + r / 4096) && is_cont (128 + r / 64 mod 64))%bool with false by (unfold between, is_cont, between; lia).
    replace (ok3 (224 + r / 4096) (128 + r / 64 mod 64) && is_cont (128 + r mod 64))%bool with true by (unfold ok3, is_cont, between; lia).
    unfold str1. f_equal. f_equal. unfold rune3. lia.
  - fold (chr (240 + r / 262144)%N) (chr (128 + r / 4096 mod 64)%N) (chr (128 + r / 64 mod 64)%N) (chr (128 + r mod 64)%N). cbn [chunks].
    rewrite !byte_chr by lia. replace (240 + r / 262144 <? 128)%N with false by lia.
    replace (between 194 223 (240 + r / 262144) && is_cont (128 + r / 4096 mod 64))%bool with false by (unfold between, is_cont, between; lia).
    replace (ok3 (240 + r / 262144) (128 + r / 4096 mod 64) && is_cont (128 + r / 64 mod 64))%bool with false by (unfold ok3, is_cont, between; lia).
    replace (ok4 (240 + r / 262144) (128 + r / 4096 mod 64) && is_cont (128 + r / 64 mod 64) && is_cont (128 + r mod 64))%bool with true
      by (unfold ok4, is_cont, between; lia).
    unfold str1. f_equal. f_equal. unfold rune4. lia.
Qed.
Lemma chunks_utf8 : forall rs, Forall character rs -> chunks (utf8 rs) = map (fun r => CRune r (utf8_char r)) rs.
Proof. intros rs H. induction H as [|r rs C H IH]; [reflexivity|]. rewrite utf8_cons, (chunks_char r _ C), IH. reflexivity. Qed.
Lemma utf8_concat : forall rs, utf8 rs = concat_str (map utf8_char rs).
Proof. induction rs as [|r rs IH]; [reflexivity|]. rewrite utf8_cons, IH. reflexivity. Qed.

Lemma white_is_space : forall r, white r = is_space r.
Proof. intro r. unfold white, white_space, is_space, between. cbn [existsb]. lia. Qed.

(* The bytes of a text are those of its characters; a character below 128 is one byte. *)
Lemma char_bytes : forall r, character r -> (r < 128)%N /\ utf8_char r = str1 (chr r) \/
  (128 <= r)%N /\ Forall (fun a => (128 <= byte a)%N) (list_ascii_of_string (utf8_char r)).
Proof.
  intros r H. unfold utf8_char, utf8_bytes. destruct (N.ltb_spec r 128) as [L1|L1]; [left; split; [exact L1|reflexivity]|right; split; [exact L1|]].
  unfold character in H.
  destruct (N.ltb_spec r 2048) as [L2|L2]; [|destruct (N.ltb_spec r 65536) as [L3|L3]]; cbn [map string_of_list_ascii list_ascii_of_string];
    repeat (constructor; [match goal with |- (128 <= byte (ascii_of_N ?n))%N => change (byte (ascii_of_N n)) with (byte (chr n)); rewrite byte_chr by lia; lia end|]);
    constructor.
Qed.
Lemma utf8_comma : forall rs, Forall character rs -> ~ In (44)%N rs -> ~ In ","%char (list_ascii_of_string (utf8 rs)).
Proof.
  intros rs H. induction H as [|r rs C H IH]; intros N; [intros []|]. rewrite utf8_cons, los_app, in_app_iff. intros [I|I].
  - destruct (char_bytes r C) as [[L E]|[L F]].
    + rewrite E in I. destruct I as [I|[]]. apply N. left. rewrite <- (byte_chr r) by lia. rewrite I. reflexivity.
    + rewrite Forall_forall in F. specialize (F _ I). vm_compute in F. congruence.
  - apply IH; [|exact I]. intro J. apply N. right. exact J.
Qed.

(* ------------------------------------------------------------------------- *)
(* Theorems                                                                    *)
(* ------------------------------------------------------------------------- *)

(* White space around the name of a column is left out, whatever its characters; white space is
   what Unicode calls so, and nothing else is left out. *)
Theorem C22_white_space : forall before inner after,
  Forall character (before ++ inner ++ after)%list ->
  forallb white before = true -> forallb white after = true ->
  inner <> [] -> white (hd 32 inner)%N = false -> white (last inner 32)%N = false -> ~ In 44%N inner ->
  to_columns [GStr (utf8 (before ++ inner ++ after)%list)] = Ok [lk_column (utf8 inner)].
Proof.
  intros before inner after C Wb Wa N Wh Wl Nc.
  assert (Sp : forall l, forallb white l = true -> Forall (fun c => chunk_space c = true) (map (fun r => CRune r (utf8_char r)) l)).
  { intros l H. rewrite Forall_map. rewrite forallb_forall in H. apply Forall_forall. intros r I. cbn [chunk_space]. rewrite <- white_is_space. apply H, I. }
  assert (T : trimmed (utf8 (before ++ inner ++ after)%list) (utf8 inner)).
  { exists (map (fun r => CRune r (utf8_char r)) before), (map (fun r => CRune r (utf8_char r)) inner), (map (fun r => CRune r (utf8_char r)) after).
    split; [|split; [apply Sp, Wb|split; [apply Sp, Wa|split; [|split]]]].
    - rewrite (chunks_utf8 _ C), !map_app. reflexivity.
    - intros c l E. destruct inner as [|r inner]; [congruence|]. injection E as <- _. cbn [chunk_space]. rewrite <- white_is_space. exact Wh.
    - intros c l E. destruct (exists_last N) as (i & r & ->). rewrite map_app in E. cbn [map] in E. apply app_inj_tail in E as [_ <-].
      rewrite last_last in Wl. cbn [chunk_space]. rewrite <- white_is_space. exact Wl.
    - rewrite map_map, utf8_concat. reflexivity. }
  assert (Nw : forall l, forallb white l = true -> ~ In 44%N l).
  { intros l H I. rewrite forallb_forall in H. specialize (H _ I). discriminate. }
  assert (I : comma_items (utf8 (before ++ inner ++ after)%list) [utf8 (before ++ inner ++ after)%list]).
  { split; [discriminate|]. split; [reflexivity|]. constructor; [|constructor]. apply utf8_comma; [exact C|].
    rewrite !in_app_iff. intros [X|[X|X]]; [exact (Nw _ Wb X)|exact (Nc X)|exact (Nw _ Wa X)]. }
  destruct (C22_columns [utf8 (before ++ inner ++ after)%list] [[utf8 (before ++ inner ++ after)%list]] [utf8 inner]
    (Forall2_cons _ _ I (Forall2_nil _)) (Forall2_cons _ _ T (Forall2_nil _))) as [E _].
  cbn [map existsb] in E. rewrite E. destruct inner as [|r inner]; [congruence|].
  assert (Z : String.eqb "" (utf8 (r :: inner)) = false).
  { rewrite utf8_cons. unfold utf8_char, utf8_bytes. repeat match goal with |- context [if ?b then _ else _] => destruct b end; reflexivity. }
  rewrite Z. reflexivity.
Qed.
Print Assumptions C22_white_space.

(* The tokens of a text put end to end are its characters, without tabs, line ends and spaces. *)
Theorem C30_characters : forall rs n ts, Forall character rs -> ~ In 0%N rs -> String.length (utf8 rs) <= n ->
  l_iterator n n (l_new (utf8 rs)) = Some ts ->
  concat_str (map tk_value ts) = utf8 (filter (fun r => negb (existsb (N.eqb r) [9; 10; 13; 32]%N)) rs).
Proof.
  intros rs n ts C Z L H.
  assert (Nn : no_nul (utf8 rs)).
  { unfold no_nul. clear - C Z. induction C as [|r rs C F IH]; [intros []|]. rewrite utf8_cons, los_app, in_app_iff. intros [I|I].
    - destruct (char_bytes r C) as [[L E]|[L G]].
      + rewrite E in I. destruct I as [I|[]]. apply Z. left. rewrite <- (byte_chr r) by lia. rewrite I. reflexivity.
      + rewrite Forall_forall in G. specialize (G _ I). vm_compute in G. congruence.
    - apply IH; [|exact I]. intro J. apply Z. right. exact J. }
  assert (V : utf8_valid (utf8 rs) = true).
  { unfold utf8_valid. rewrite (chunks_utf8 rs C). clear. induction rs as [|r rs IH]; [reflexivity|exact IH]. }
  destruct (C30_nothing_is_lost (utf8 rs) n ts Nn L H) as [_ E]. rewrite (E V). clear - C.
  unfold without_blanks. induction C as [|r rs C F IH]; [reflexivity|]. rewrite utf8_cons, los_app, filter_app, text_app, IH. cbn [filter].
  destruct (char_bytes r C) as [[L E]|[L G]].
  - rewrite E. change (list_ascii_of_string (str1 (chr r))) with [chr r]. cbn [filter].
    replace (blank_byte (chr r)) with (existsb (N.eqb r) [9; 10; 13; 32]%N) by (unfold blank_byte; rewrite byte_chr by lia; reflexivity).
    destruct (negb _); [rewrite utf8_cons, E; reflexivity|reflexivity].
  - replace (existsb (N.eqb r) [9; 10; 13; 32]%N) with false by (cbn [existsb]; lia). cbn [negb]. rewrite utf8_cons. f_equal.
    rewrite <- (string_of_list_ascii_of_string (utf8_char r)) at 2. f_equal.
    induction G as [|a l Ga G IHl]; [reflexivity|]. cbn [filter]. rewrite IHl.
    replace (blank_byte a) with false by (unfold blank_byte; cbn [existsb]; lia). reflexivity.
Qed.
Print Assumptions C30_characters.

(* "  na　me ", with an ideographic space inside that stays *)
Example C22_white_space_ex :
  to_columns [GStr (utf8 [160; 8195; 110; 97; 12288; 109; 101; 8232]%N)] = Ok [lk_column (utf8 [110; 97; 12288; 109; 101]%N)]
  /\ utf8 [8195; 8364; 128512]%N = String "226" (String "128" (String "131" (String "226" (String "130" (String "172"
       (String "240" (String "159" (String "152" (str1 "128"))))))))).
Proof.
  split; [|vm_compute; reflexivity].
  apply (C22_white_space [160; 8195]%N [110; 97; 12288; 109; 101]%N [8232]%N); try reflexivity; try discriminate.
  - repeat constructor; unfold character; lia.
  - intros [X|[X|[X|[X|[X|[]]]]]]; discriminate.
Qed.
(* a = followed by an e with an accent *)
Example C30_characters_ex : exists ts, l_iterator 9 9 (l_new (utf8 [97; 32; 61; 32; 233]%N)) = Some ts
  /\ concat_str (map tk_value ts) = utf8 [97; 61; 233]%N.
Proof. eexists. split; vm_compute; reflexivity. Qed.
