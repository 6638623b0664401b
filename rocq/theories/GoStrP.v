(* Facts about UTF-8 decoding, splitting and joining. *)
From Coq Require Import ZifyBool ZifyN ZifyNat.
From Verif Require Export GoStr.

Ltac Zify.zify_post_hook ::= Z.div_mod_to_equations.

Lemma byte_lt : forall a, (byte a < 256)%N.
Proof. intro a. unfold byte. apply N_ascii_bounded. Qed.
Lemma chr_byte : forall a, chr (byte a) = a.
Proof. intro a. apply ascii_N_embedding. Qed.
Lemma byte_chr : forall n, (n < 256)%N -> byte (chr n) = n.
Proof. intros n H. unfold byte, chr. apply N_ascii_embedding, H. Qed.
Lemma byte_inj : forall a b, byte a = byte b -> a = b.
Proof. intros a b H. rewrite <- (chr_byte a), H. apply chr_byte. Qed.
Lemma chr_eq : forall n a, n = byte a -> chr n = a.
Proof. intros n a ->. apply chr_byte. Qed.

(* A chunk as produced by decoding. *)
Definition chunk_wf (c : chunk) : Prop :=
  match c with
  | CRune r bs =>
    encode_rune r = bs /\ valid_rune r = true
    /\ (if (r <? 128)%N then bs = str1 (chr r)
        else forall a, In a (list_ascii_of_string bs) -> (128 <= byte a)%N)
  | CBad b => (128 <= byte b)%N
  end.

Lemma wf1 : forall a, (byte a <? 128)%N = true -> chunk_wf (CRune (byte a) (str1 a)).
Proof.
  intros a H. cbn. unfold encode_rune, valid_rune, between. rewrite H, chr_byte.
  split; [reflexivity|]. split; [lia|reflexivity].
Qed.

Lemma wf2 : forall a b, between 194 223 (byte a) && is_cont (byte b) = true ->
  chunk_wf (CRune (rune2 (byte a) (byte b)) (String a (str1 b))).
Proof.
  intros a b H. unfold is_cont, between in H. cbn [chunk_wf].
  pose proof (byte_lt a). pose proof (byte_lt b). unfold rune2 in *.
  set (r := ((byte a - 192) * 64 + (byte b - 128))%N).
  assert (Hr : (128 <= r < 2048)%N) by (subst r; lia).
  unfold encode_rune, valid_rune, between, str1.
  replace (r <? 128)%N with false by lia. replace (r <? 2048)%N with true by lia.
  split; [|split].
  - f_equal; [apply chr_eq; subst r; lia|]. f_equal. apply chr_eq. subst r. lia.
  - lia.
  - intros x [<-|[<-|[]]]; lia.
Qed.

Lemma wf3 : forall a b c, ok3 (byte a) (byte b) && is_cont (byte c) = true ->
  chunk_wf (CRune (rune3 (byte a) (byte b) (byte c)) (String a (String b (str1 c)))).
Proof.
  intros a b c H. unfold ok3, is_cont, between in H. cbn [chunk_wf].
  pose proof (byte_lt a). pose proof (byte_lt b). pose proof (byte_lt c). unfold rune3 in *.
  set (r := ((byte a - 224) * 4096 + (byte b - 128) * 64 + (byte c - 128))%N).
  assert (Hr : (2048 <= r < 65536)%N /\ (r < 55296 \/ 57344 <= r)%N) by (subst r; lia).
  unfold encode_rune, valid_rune, between, str1.
  replace (r <? 128)%N with false by lia. replace (r <? 2048)%N with false by lia.
  replace (negb ((r <? 55296)%N || ((57344 <=? r)%N && (r <=? 1114111)%N))) with false by lia.
  replace (r <? 65536)%N with true by lia.
  split; [|split].
  - f_equal; [apply chr_eq; subst r; lia|]. f_equal; [apply chr_eq; subst r; lia|].
    f_equal. apply chr_eq. subst r. lia.
  - lia.
  - intros x [<-|[<-|[<-|[]]]]; lia.
Qed.

Lemma wf4 : forall a b c d, ok4 (byte a) (byte b) && is_cont (byte c) && is_cont (byte d) = true ->
  chunk_wf (CRune (rune4 (byte a) (byte b) (byte c) (byte d)) (String a (String b (String c (str1 d))))).
Proof.
  intros a b c d H. unfold ok4, is_cont, between in H. cbn [chunk_wf].
  pose proof (byte_lt a). pose proof (byte_lt b). pose proof (byte_lt c). pose proof (byte_lt d).
  unfold rune4 in *.
  set (r := ((byte a - 240) * 262144 + (byte b - 128) * 4096 + (byte c - 128) * 64 + (byte d - 128))%N).
  assert (Hr : (65536 <= r <= 1114111)%N) by (subst r; lia).
  unfold encode_rune, valid_rune, between, str1.
  replace (r <? 128)%N with false by lia. replace (r <? 2048)%N with false by lia.
  replace (negb ((r <? 55296)%N || ((57344 <=? r)%N && (r <=? 1114111)%N))) with false by lia.
  replace (r <? 65536)%N with false by lia.
  split; [|split].
  - f_equal; [apply chr_eq; subst r; lia|]. f_equal; [apply chr_eq; subst r; lia|].
    f_equal; [apply chr_eq; subst r; lia|]. f_equal. apply chr_eq. subst r. lia.
  - lia.
  - intros x [<-|[<-|[<-|[<-|[]]]]]; lia.
Qed.

(* Strong induction on strings. *)
Lemma string_len_ind : forall P : string -> Prop,
  (forall s, (forall t, String.length t < String.length s -> P t) -> P s) -> forall s, P s.
Proof.
  intros P H s. enough (G : forall n t, String.length t < n -> P t) by (apply (G (S (String.length s))); lia).
  induction n as [|n IH]; intros t Ht; [lia|]. apply H. intros u Hu. apply IH. lia.
Qed.

(* One step of decoding. *)
Lemma chunks_step : forall a s1, exists c s', chunks (String a s1) = c :: chunks s'
  /\ String a s1 = chunk_bytes c ++ s' /\ chunk_wf c /\ String.length s' <= String.length s1.
Proof.
  intros a s1. cbn [chunks].
  destruct (byte a <? 128)%N eqn:E1.
  { eexists _, s1. split; [reflexivity|]. split; [reflexivity|]. split; [apply wf1, E1|lia]. }
  assert (B : chunk_wf (CBad a)) by (cbn; lia).
  destruct s1 as [|b s2].
  { eexists _, "". split; [reflexivity|]. split; [reflexivity|]. split; [exact B|cbn; lia]. }
  destruct (between 194 223 (byte a) && is_cont (byte b)) eqn:E2.
  { eexists _, s2. split; [reflexivity|]. split; [reflexivity|]. split; [apply wf2, E2|cbn; lia]. }
  destruct s2 as [|c s3].
  { eexists _, (String b ""). split; [reflexivity|]. split; [reflexivity|]. split; [exact B|cbn; lia]. }
  destruct (ok3 (byte a) (byte b) && is_cont (byte c)) eqn:E3.
  { eexists _, s3. split; [reflexivity|]. split; [reflexivity|]. split; [apply wf3, E3|cbn; lia]. }
  destruct s3 as [|d s4].
  { eexists _, (String b (String c "")). split; [reflexivity|]. split; [reflexivity|]. split; [exact B|cbn; lia]. }
  destruct (ok4 (byte a) (byte b) && is_cont (byte c) && is_cont (byte d)) eqn:E4.
  { eexists _, s4. split; [reflexivity|]. split; [reflexivity|]. split; [apply wf4, E4|cbn; lia]. }
  eexists _, (String b (String c (String d s4))).
  split; [reflexivity|]. split; [reflexivity|]. split; [exact B|lia].
Qed.

Lemma chunks_wf : forall s, Forall chunk_wf (chunks s).
Proof.
  intro s. induction s as [s IH] using string_len_ind. destruct s as [|a s1]; [constructor|].
  destruct (chunks_step a s1) as (c & s' & E & _ & W & L). rewrite E. constructor; [exact W|].
  apply IH. cbn. lia.
Qed.

Lemma chunks_bytes : forall s, concat_str (map chunk_bytes (chunks s)) = s.
Proof.
  intro s. induction s as [s IH] using string_len_ind. destruct s as [|a s1]; [reflexivity|].
  destruct (chunks_step a s1) as (c & s' & E & B & W & L). rewrite E. cbn [map concat_str].
  rewrite IH by (cbn; lia). symmetry. exact B.
Qed.

Lemma sapp_assoc : forall a b c : string, (a ++ b) ++ c = a ++ (b ++ c).
Proof. induction a as [|x a IH]; intros; cbn; [reflexivity|]. rewrite IH. reflexivity. Qed.
Lemma sapp_nil : forall a : string, a ++ "" = a.
Proof. induction a as [|x a IH]; cbn; [reflexivity|]. rewrite IH. reflexivity. Qed.

Lemma concat_str_app : forall l m, concat_str (l ++ m)%list = concat_str l ++ concat_str m.
Proof. induction l as [|x l IH]; intro m; cbn; [reflexivity|]. rewrite IH, sapp_assoc. reflexivity. Qed.

(* Valid UTF-8 is the encoding of its runes. *)
Lemma valid_runes : forall s, utf8_valid s = true -> concat_str (map encode_rune (runes s)) = s.
Proof.
  intros s H. unfold runes. rewrite map_map. rewrite <- (chunks_bytes s) at 2. f_equal.
  unfold utf8_valid in H. pose proof (chunks_wf s) as W. revert H W.
  generalize (chunks s) as l. induction l as [|c l IH]; intros H W; [reflexivity|].
  cbn [forallb map] in *. inversion_clear W as [|? ? Wc Wl]. destruct c as [r bs|b]; [|discriminate].
  cbn [chunk_rune chunk_bytes].
  destruct Wc as [-> _]. rewrite IH; auto.
Qed.

(* Runes of a decoded string are valid. *)
Lemma runes_valid : forall s, Forall (fun r => valid_rune r = true) (runes s).
Proof.
  intro s. unfold runes. pose proof (chunks_wf s) as W. induction W as [|c l Wc W IH]; cbn; constructor; auto.
  destruct c as [r bs|b]; [apply Wc|reflexivity].
Qed.

(* ------------------------------------------------------------------------- *)
(* split / join                                                                *)
(* ------------------------------------------------------------------------- *)

Lemma split_nonempty : forall sep s, split_on sep s <> [].
Proof.
  intros sep s. destruct s as [|a s]; cbn; [discriminate|].
  destruct (Ascii.eqb a sep); [discriminate|]. destruct (split_on sep s); discriminate.
Qed.

Lemma join_split : forall sep s, join_with (str1 sep) (split_on sep s) = s.
Proof.
  intros sep s. induction s as [|a s IH]; [reflexivity|]. cbn [split_on].
  pose proof (split_nonempty sep s) as N.
  destruct (split_on sep s) as [|p ps] eqn:E; [congruence|].
  destruct (Ascii.eqb a sep) eqn:Ea.
  - apply Ascii.eqb_eq in Ea. subst a. cbn [join_with]. cbn. f_equal. exact IH.
  - destruct ps as [|p' ps]; cbn [join_with] in *; cbn; f_equal; exact IH.
Qed.

(* A separator does not occur in the pieces. *)
Lemma split_no_sep : forall sep s p, In p (split_on sep s) -> ~ In sep (list_ascii_of_string p).
Proof.
  intros sep s. induction s as [|a s IH]; intros p H.
  - destruct H as [<-|[]]. intros [].
  - cbn [split_on] in H. pose proof (split_nonempty sep s) as N.
    destruct (split_on sep s) as [|q qs] eqn:E; [congruence|].
    destruct (Ascii.eqb a sep) eqn:Ea.
    + destruct H as [<-|H]; [intros []|]. apply IH, H.
    + destruct H as [<-|H]; [|apply IH; right; exact H].
      cbn. intros [->|Hin]; [rewrite Ascii.eqb_refl in Ea; discriminate|].
      apply (IH q); [left; reflexivity|exact Hin].
Qed.

Lemma los_app : forall a b, list_ascii_of_string (a ++ b) = (list_ascii_of_string a ++ list_ascii_of_string b)%list.
Proof. induction a as [|x a IH]; intro b; cbn; [reflexivity|]. rewrite IH. reflexivity. Qed.

(* An ASCII byte never belongs to a multi-byte sequence, so decoding can be cut before it. *)
Lemma chunks_cut : forall p x s, (byte x < 128)%N ->
  chunks (p ++ String x s) = (chunks p ++ chunks (String x s))%list.
Proof.
  intros p x s Hx.
  assert (C1 : is_cont (byte x) = false) by (unfold is_cont, between; lia).
  assert (C2 : forall a, ok3 a (byte x) = false) by (intro a; unfold ok3, is_cont, between; lia).
  assert (C3 : forall a, ok4 a (byte x) = false) by (intro a; unfold ok4, is_cont, between; lia).
  induction p as [p IH] using string_len_ind. destruct p as [|a p1]; [reflexivity|].
  assert (I1 := IH p1 ltac:(cbn; lia)).
  cbn [append]. remember (String x s) as t eqn:Et.
  destruct p1 as [|b p2].
  { cbn [append]. subst t. cbn [chunks app].
    destruct (byte a <? 128)%N; [reflexivity|]. rewrite C1, andb_false_r.
    destruct s as [|c s3]; [reflexivity|]. rewrite C2. cbn [andb].
    destruct s3 as [|d s4]; [reflexivity|]. rewrite C3. reflexivity. }
  assert (I2 := IH p2 ltac:(cbn; lia)).
  cbn [append] in *.
  change (chunks (String a (String b p2))) with
    (if (byte a <? 128)%N then CRune (byte a) (str1 a) :: chunks (String b p2) else
     if between 194 223 (byte a) && is_cont (byte b)
     then CRune (rune2 (byte a) (byte b)) (String a (str1 b)) :: chunks p2 else
     match p2 with
     | EmptyString => CBad a :: chunks (String b p2)
     | String c s3 =>
        if ok3 (byte a) (byte b) && is_cont (byte c)
        then CRune (rune3 (byte a) (byte b) (byte c)) (String a (String b (str1 c))) :: chunks s3 else
        match s3 with
        | EmptyString => CBad a :: chunks (String b p2)
        | String d s4 =>
          if ok4 (byte a) (byte b) && is_cont (byte c) && is_cont (byte d)
          then CRune (rune4 (byte a) (byte b) (byte c) (byte d))
                     (String a (String b (String c (str1 d)))) :: chunks s4
          else CBad a :: chunks (String b p2)
        end
     end).
  change (chunks (String a (String b (p2 ++ t)))) with
    (if (byte a <? 128)%N then CRune (byte a) (str1 a) :: chunks (String b (p2 ++ t)) else
     if between 194 223 (byte a) && is_cont (byte b)
     then CRune (rune2 (byte a) (byte b)) (String a (str1 b)) :: chunks (p2 ++ t) else
     match (p2 ++ t) with
     | EmptyString => CBad a :: chunks (String b (p2 ++ t))
     | String c s3 =>
        if ok3 (byte a) (byte b) && is_cont (byte c)
        then CRune (rune3 (byte a) (byte b) (byte c)) (String a (String b (str1 c))) :: chunks s3 else
        match s3 with
        | EmptyString => CBad a :: chunks (String b (p2 ++ t))
        | String d s4 =>
          if ok4 (byte a) (byte b) && is_cont (byte c) && is_cont (byte d)
          then CRune (rune4 (byte a) (byte b) (byte c) (byte d))
                     (String a (String b (String c (str1 d)))) :: chunks s4
          else CBad a :: chunks (String b (p2 ++ t))
        end
     end).
  rewrite I1, I2. clear I1 I2.
  destruct (byte a <? 128)%N; [reflexivity|].
  destruct (between 194 223 (byte a) && is_cont (byte b)); [reflexivity|].
  destruct p2 as [|c p3].
  { cbn [append]. subst t. rewrite C1, andb_false_r.
    destruct s as [|d s4]; [reflexivity|]. rewrite andb_false_r. reflexivity. }
  cbn [append]. assert (I3 := IH p3 ltac:(cbn; lia)).
  destruct (ok3 (byte a) (byte b) && is_cont (byte c)); [rewrite I3; reflexivity|].
  destruct p3 as [|d p4].
  { cbn [append]. subst t. rewrite C1, andb_false_r. reflexivity. }
  cbn [append]. assert (I4 := IH p4 ltac:(cbn; lia)).
  destruct (ok4 (byte a) (byte b) && is_cont (byte c) && is_cont (byte d)); [rewrite I4; reflexivity|].
  reflexivity.
Qed.

Lemma chunks_ascii : forall x s, (byte x < 128)%N ->
  chunks (String x s) = CRune (byte x) (str1 x) :: chunks s.
Proof. intros x s H. cbn [chunks]. replace (byte x <? 128)%N with true by lia. reflexivity. Qed.

Lemma split_none : forall sep s, ~ In sep (list_ascii_of_string s) -> split_on sep s = [s].
Proof.
  intros sep s. induction s as [|a s IH]; intro H; [reflexivity|]. cbn [split_on].
  destruct (Ascii.eqb_spec a sep) as [->|_].
  - exfalso. apply H. left. reflexivity.
  - rewrite IH; [reflexivity|]. intro Hin. apply H. right. exact Hin.
Qed.

Lemma slen_app : forall a b : string, String.length (a ++ b) = String.length a + String.length b.
Proof. induction a as [|x a IH]; intro b; cbn; [reflexivity|]. rewrite IH. reflexivity. Qed.
