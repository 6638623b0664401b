(* The printed time literal reads back. *)
From Coq Require Import ZifyBool ZifyN ZifyNat Lia.
From Coq Require Decimal DecimalString DecimalN DecimalPos.
From Verif Require Import Format NumeralsP Calendar CalendarP.
Import DecimalString.
Open Scope Z_scope.

(* The number of digits of a numeral. *)
Lemma ev_lower : forall d acc,
  (acc * 10 ^ N.of_nat (String.length (NilEmpty.string_of_uint d)) <= ev acc d)%N.
Proof.
  induction d as [|d IH|d IH|d IH|d IH|d IH|d IH|d IH|d IH|d IH|d IH]; intro acc;
    cbn [NilEmpty.string_of_uint String.length ev]; [cbn; lia|..];
    rewrite Nat2N.inj_succ, N.pow_succ_r';
    (eapply N.le_trans; [|apply IH]);
    rewrite N.mul_assoc; apply N.mul_le_mono_r; lia.
Qed.

Lemma ev_head : forall d h, (0 < h)%N ->
  (10 ^ N.of_nat (String.length (NilEmpty.string_of_uint d)) <= ev h d)%N.
Proof. intros d h H. assert (L := ev_lower d h). nia. Qed.

Lemma numeral_length : forall n k, (n < 10 ^ N.of_nat (S k))%N -> (String.length (string_of_N n) <= S k)%nat.
Proof.
  intros n k H. rewrite string_of_N_empty by apply to_uint_nonnil.
  assert (E : ev 0 (N.to_uint n) = n) by (rewrite ev_uint; apply DecimalN.Unsigned.of_to).
  assert (U : N.to_uint n = Decimal.unorm (N.to_uint n))
    by (rewrite <- DecimalN.Unsigned.to_of, DecimalN.Unsigned.of_to; reflexivity).
  rewrite <- E in H. clear E. revert H U. generalize (N.to_uint n) as u. intros u H U.
  assert (G : forall h d, (0 < h)%N -> (ev h d < 10 ^ N.of_nat (S k))%N ->
              (S (String.length (NilEmpty.string_of_uint d)) <= S k)%nat).
  { intros h d Hh Hv. assert (L := ev_head d h Hh).
    assert (P : (10 ^ N.of_nat (String.length (NilEmpty.string_of_uint d)) < 10 ^ N.of_nat (S k))%N)
      by lia.
    apply N.pow_lt_mono_r_iff in P; lia. }
  destruct u as [|d|d|d|d|d|d|d|d|d|d]; cbn [NilEmpty.string_of_uint String.length ev] in *;
    try (apply (fun Hh => G _ d Hh H); lia); [lia|].
  (* a leading zero is the whole numeral *)
  assert (Z : d = Decimal.Nil).
  { assert (B : forall d e, Decimal.nzhead d <> Decimal.D0 e)
      by (clear; induction d; intros e; cbn; try discriminate; auto).
    unfold Decimal.unorm in U. cbn [Decimal.nzhead] in U.
    destruct (Decimal.nzhead d) eqn:F; try discriminate U; [injection U as U; assumption|].
    exfalso. exact (B _ _ F). }
  subst d. cbn. lia.
Qed.

Lemma length_cat : forall a b, String.length (a ++ b) = (String.length a + String.length b)%nat.
Proof. induction a as [|x a IH]; intro b; cbn; [reflexivity|]. rewrite IH. reflexivity. Qed.
Lemma length_zeros : forall n, String.length (zeros n) = n.
Proof. induction n as [|n IH]; cbn; [reflexivity|]. rewrite IH. reflexivity. Qed.

Lemma dec_zeros : forall n s acc, dec_digits acc (zeros n ++ s) = dec_digits (acc * 10 ^ N.of_nat n) s.
Proof.
  induction n as [|n IH]; intros s acc; cbn [zeros append].
  - cbn. rewrite N.mul_1_r. reflexivity.
  - cbn [dec_digits]. change (dec_digit "0") with (Some 0%N). cbn iota. rewrite IH.
    rewrite Nat2N.inj_succ, N.pow_succ_r'. f_equal. lia.
Qed.

Lemma pad_length : forall k n, (n < 10 ^ N.of_nat (S k))%N -> String.length (pad_N (S k) n) = S k.
Proof.
  intros k n H. unfold pad_N. rewrite length_cat, length_zeros. apply numeral_length in H. lia.
Qed.

Lemma dec_nat_digits : forall s, s <> ""%string -> dec_nat s = dec_digits 0 s.
Proof. intros [|a s] H; [contradiction|reflexivity]. Qed.

Lemma pad_digits : forall k n, dec_digits 0 (pad_N k n) = Some n.
Proof.
  intros k n. unfold pad_N. rewrite dec_zeros, dec_digits_N. cbn [N.mul].
  rewrite ev_uint, DecimalN.Unsigned.of_to. reflexivity.
Qed.

Lemma pad_value : forall k n, dec_nat (pad_N k n) = Some n.
Proof.
  intros k n. rewrite dec_nat_digits; [apply pad_digits|]. unfold pad_N.
  destruct (string_of_N_head n) as (a & s & E & _). rewrite E.
  intro F. apply (f_equal String.length) in F. rewrite length_cat in F. cbn in F. lia.
Qed.

Lemma take_app : forall s r, take (String.length s) (s ++ r) = Some (s, r).
Proof.
  induction s as [|a s IH]; intro r; cbn [String.length append take]; [destruct r; reflexivity|].
  rewrite IH. reflexivity.
Qed.

Lemma prefix_app : forall s r, String.prefix s (s ++ r) = true.
Proof.
  induction s as [|a s IH]; intro r; cbn; [destruct r; reflexivity|].
  destruct (Ascii.ascii_dec a a); [apply IH|contradiction].
Qed.

Lemma substring_all : forall r n, (String.length r <= n)%nat -> substring 0 n r = r.
Proof.
  induction r as [|a r IH]; intros n H; destruct n; cbn in *; try reflexivity; [lia|].
  rewrite IH by lia. reflexivity.
Qed.
Lemma substring_app : forall s r n, (String.length r <= n)%nat -> substring (String.length s) n (s ++ r) = r.
Proof.
  induction s as [|a s IH]; intros r n H; cbn [String.length append]; [apply substring_all, H|].
  cbn [substring]. apply IH, H.
Qed.

Lemma field_pad : forall k z sep r, 0 <= z < 10 ^ Z.of_nat (S k) ->
  field (S k) sep (pad_Z (S k) z ++ sep ++ r) = Some (z, r).
Proof.
  intros k z sep r H. unfold field, pad_Z.
  replace (z <? 0) with false by lia. change ("" ++ pad_N (S k) (Z.abs_N z))%string with (pad_N (S k) (Z.abs_N z)).
  assert (Hn : (Z.abs_N z < 10 ^ N.of_nat (S k))%N).
  { apply N2Z.inj_lt. rewrite N2Z.inj_pow, N2Z.inj_abs_N, nat_N_Z. change (Z.of_N 10) with 10. lia. }
  assert (T := take_app (pad_N (S k) (Z.abs_N z)) (sep ++ r)). rewrite pad_length in T by assumption.
  rewrite T, pad_value, prefix_app, substring_app by (rewrite length_cat; lia).
  f_equal. f_equal. lia.
Qed.

Lemma field_sep : forall k z c r, 0 <= z < 10 ^ Z.of_nat (S k) ->
  field (S k) (String c "") (pad_Z (S k) z ++ String c r) = Some (z, r).
Proof. intros k z c r H. exact (field_pad k z (String c "") r H). Qed.

Lemma field_end : forall k z r, 0 <= z < 10 ^ Z.of_nat (S k) ->
  field (S k) "" (pad_Z (S k) z ++ r) = Some (z, r).
Proof. intros k z r H. exact (field_pad k z "" r H). Qed.

(* Trailing zeros. *)
Lemma trim_split : forall s, exists j, s = (trim_zeros s ++ zeros j)%string.
Proof.
  induction s as [|a s (j & IH)]; [exists O; reflexivity|].
  cbn [trim_zeros]. destruct (trim_zeros s) as [|b t] eqn:E.
  - destruct (Ascii.eqb_spec a "0") as [->|Ha].
    + exists (S j). rewrite IH. reflexivity.
    + exists j. rewrite IH. reflexivity.
  - exists j. rewrite IH. reflexivity.
Qed.

Lemma dec_digits_app : forall a b acc,
  dec_digits acc (a ++ b) = match dec_digits acc a with Some v => dec_digits v b | None => None end.
Proof.
  induction a as [|x a IH]; intros b acc; [reflexivity|]. cbn [append dec_digits].
  destruct (dec_digit x); [apply IH|reflexivity].
Qed.

Lemma digits_app : forall s acc v b r, dec_digits acc s = Some v -> dec_digit b = None ->
  digits (s ++ String b r) = (s, String b r).
Proof.
  induction s as [|a s IH]; intros acc v b r H Hb; cbn [append digits].
  - rewrite Hb. reflexivity.
  - cbn [dec_digits] in H. destruct (dec_digit a) as [d|]; [|discriminate].
    rewrite (IH _ _ _ _ H Hb). reflexivity.
Qed.

Lemma fraction_micro : forall ns r, 0 <= ns < 1000000000 ->
  fraction (format_micro ns ++ String "+" r) = Some (ns / 1000, String "+" r).
Proof.
  intros ns r H. unfold format_micro.
  set (m := Z.to_N (ns / 1000)).
  assert (Hm : Z.of_N m = ns / 1000) by (unfold m; rewrite Z2N.id; [reflexivity|apply Z.div_pos; lia]).
  assert (Hb : (m < 10 ^ N.of_nat 6)%N).
  { apply N2Z.inj_lt. rewrite Hm. change (Z.of_N (10 ^ N.of_nat 6)) with 1000000.
    apply Z.div_lt_upper_bound; lia. }
  assert (L := pad_length 5 m Hb). assert (V := pad_digits 6 m).
  destruct (trim_split (pad_N 6 m)) as (j & E). rewrite E in L, V.
  rewrite length_cat, length_zeros in L.
  destruct (trim_zeros (pad_N 6 m)) as [|a t] eqn:Et.
  - cbn [append] in *. rewrite <- (N.mul_0_l (10 ^ N.of_nat j)) in V.
    assert (Z0 := dec_zeros j ""%string 0).
    assert (App : (zeros j ++ "")%string = zeros j).
    { clear. induction j as [|j IH]; [reflexivity|]. cbn [zeros append]. rewrite IH. reflexivity. }
    rewrite App in Z0. cbn [dec_digits N.mul] in Z0. cbn [N.mul] in V. rewrite Z0 in V.
    injection V as V. rewrite <- Hm, <- V. reflexivity.
  - rewrite dec_digits_app in V. set (x := String a t) in *.
    destruct (dec_digits 0 x) as [v|] eqn:Ev; [|discriminate].
    assert (Z0 := dec_zeros j ""%string v).
    assert (App : (zeros j ++ "")%string = zeros j).
    { clear. induction j as [|j IH]; [reflexivity|]. cbn [zeros append]. rewrite IH. reflexivity. }
    rewrite App in Z0. cbn [dec_digits] in Z0. rewrite Z0 in V. injection V as V.
    change (("." ++ x) ++ String "+" r)%string with (String "." (x ++ String "+" r)).
    unfold fraction. rewrite (digits_app x 0%N v "+"%char r Ev eq_refl).
    assert (Hx : (1 <= String.length x <= 6)%nat) by (unfold x in *; cbn [String.length] in *; lia).
    replace ((String.length x =? 0)%nat || (6 <? String.length x)%nat) with false by lia.
    rewrite dec_nat_digits by (unfold x; discriminate). rewrite Ev.
    f_equal. f_equal. rewrite <- Hm, <- V. rewrite N2Z.inj_mul, N2Z.inj_pow, nat_N_Z.
    replace (6 - String.length x)%nat with j by lia. reflexivity.
Qed.

(* The range of instants whose year has four digits. *)
Definition year_1 : Z := -62135596800.
Definition year_10000 : Z := 253402300800.

Lemma year_range : forall t y m d, year_1 <= t < year_10000 ->
  civil_of_days (t / 86400) = (y, m, d) -> 1 <= y < 10000.
Proof.
  intros t y m d H E.
  assert (D : -719162 <= t / 86400 < 2932897).
  { unfold year_1, year_10000 in H. Z.div_mod_to_equations. lia. }
  split.
  - destruct (Z.eq_dec (t / 86400) (-719162)) as [F|F].
    + rewrite F in E. vm_compute in E. injection E as <- <- <-. lia.
    + assert (M := civil_mono (-719162) (t / 86400) ltac:(lia)). rewrite E in M.
      change (civil_of_days (-719162)) with (1, 1, 1) in M. unfold before in M. lia.
  - assert (M := civil_mono (t / 86400) 2932897 ltac:(lia)). rewrite E in M.
    change (civil_of_days 2932897) with (10000, 1, 1) in M. unfold before in M.
    assert (B := civil_is_date (t / 86400)). rewrite E in B. unfold is_date in B. lia.
Qed.

Lemma format_time_reads : forall t, year_1 <= tm_sec t < year_10000 -> 0 <= tm_nsec t < 1000000000 ->
  exists st, read_stamp (format_time t) = Some st
    /\ denotes st (tm_sec t * 1000000 + tm_nsec t / 1000).
Proof.
  intros t Hs Hn. unfold format_time. cbv zeta.
  destruct (civil_of_days (tm_sec t / 86400)) as [[y m] d] eqn:E.
  assert (Hy := year_range _ _ _ _ Hs E).
  assert (B := civil_is_date (tm_sec t / 86400)). rewrite E in B.
  assert (Hm : 1 <= m <= 12) by (unfold is_date in B; lia).
  assert (Hd : 1 <= d <= 31).
  { unfold is_date, days_in_month in B. destruct B as [_ B].
    destruct (m =? 2); [destruct (leap y); lia|]. destruct (_ || _)%bool; lia. }
  set (tod := tm_sec t mod 86400).
  assert (Ht : 0 <= tod < 86400) by (apply Z.mod_pos_bound; lia).
  assert (Hh : 0 <= tod / 3600 < 24) by (Z.div_mod_to_equations; lia).
  assert (Hmi : 0 <= (tod / 60) mod 60 < 60) by (apply Z.mod_pos_bound; lia).
  assert (Hse : 0 <= tod mod 60 < 60) by (apply Z.mod_pos_bound; lia).
  eexists. split.
  - cbn [append read_stamp].
    rewrite (field_sep 3 y) by (change (10 ^ Z.of_nat 4) with 10000; lia).
    rewrite (field_sep 1 m) by (change (10 ^ Z.of_nat 2) with 100; lia).
    rewrite (field_sep 1 d) by (change (10 ^ Z.of_nat 2) with 100; lia).
    rewrite (field_sep 1 (tod / 3600)) by (change (10 ^ Z.of_nat 2) with 100; lia).
    rewrite (field_sep 1 _) by (change (10 ^ Z.of_nat 2) with 100; lia).
    rewrite (field_end 1 (tod mod 60)) by (change (10 ^ Z.of_nat 2) with 100; lia).
    rewrite (fraction_micro _ "00'" Hn).
    change (String.eqb "+00'" "+00'") with true. replace (1 <=? y) with true by lia. reflexivity.
  - exists (tm_sec t / 86400). cbn [st_date st_hour st_min st_sec st_micro].
    split; [apply on_day_civil; symmetry; exact E|]. split; [exact B|].
    split; [lia|]. split; [lia|]. split; [lia|].
    split; [Z.div_mod_to_equations; lia|].
    assert (E1 := Z.div_mod (tm_sec t) 86400 ltac:(lia)). fold tod in E1.
    assert (E2 := Z.div_mod tod 60 ltac:(lia)).
    assert (E3 := Z.div_mod (tod / 60) 60 ltac:(lia)).
    rewrite Z.div_div in E3 by lia. change (60 * 60) with 3600 in E3. lia.
Qed.
