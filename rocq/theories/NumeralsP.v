(* Numerals printed by the model denote their number. *)
From Coq Require Import ZifyBool ZifyN ZifyNat.
From Coq Require Decimal DecimalString DecimalN DecimalPos.
From Verif Require Export Numerals GoStrP Format.
Import DecimalString.

(* The value of digits after a prefix of value acc. *)
Fixpoint ev (acc : N) (d : Decimal.uint) : N :=
  match d with
  | Decimal.Nil => acc
  | Decimal.D0 l => ev (10 * acc) l
  | Decimal.D1 l => ev (10 * acc + 1) l
  | Decimal.D2 l => ev (10 * acc + 2) l
  | Decimal.D3 l => ev (10 * acc + 3) l
  | Decimal.D4 l => ev (10 * acc + 4) l
  | Decimal.D5 l => ev (10 * acc + 5) l
  | Decimal.D6 l => ev (10 * acc + 6) l
  | Decimal.D7 l => ev (10 * acc + 7) l
  | Decimal.D8 l => ev (10 * acc + 8) l
  | Decimal.D9 l => ev (10 * acc + 9) l
  end.

Lemma ev_acc : forall d p, ev (Npos p) d = Npos (Pos.of_uint_acc d p).
Proof.
  induction d as [|d IH|d IH|d IH|d IH|d IH|d IH|d IH|d IH|d IH|d IH]; intro p;
    cbn [ev Pos.of_uint_acc]; [reflexivity|..]; rewrite <- IH; f_equal; lia.
Qed.

Lemma ev_uint : forall d, ev 0 d = N.of_uint d.
Proof.
  induction d as [|d IH|d IH|d IH|d IH|d IH|d IH|d IH|d IH|d IH|d IH]; cbn [ev N.of_uint Pos.of_uint];
    try reflexivity; try exact IH; apply ev_acc.
Qed.

Lemma ev_string : forall d acc, dec_digits acc (NilEmpty.string_of_uint d) = Some (ev acc d).
Proof.
  induction d as [|d IH|d IH|d IH|d IH|d IH|d IH|d IH|d IH|d IH|d IH]; intro acc;
    cbn [NilEmpty.string_of_uint dec_digits ev]; [reflexivity|..];
    match goal with |- context [dec_digit ?a] =>
      let v := eval vm_compute in (dec_digit a) in change (dec_digit a) with v end;
    cbn iota; rewrite IH; try reflexivity; f_equal; f_equal; lia.
Qed.

Lemma to_uint_nonnil : forall n, N.to_uint n <> Decimal.Nil.
Proof.
  intros n E. destruct n; cbn in E; [discriminate|].
  pose proof (DecimalPos.Unsigned.to_uint_nonnil p). contradiction.
Qed.

Lemma string_of_N_empty : forall n, N.to_uint n <> Decimal.Nil ->
  string_of_N n = NilEmpty.string_of_uint (N.to_uint n).
Proof. intros n H. unfold string_of_N, NilZero.string_of_uint. destruct (N.to_uint n); congruence. Qed.

Lemma dec_digits_N : forall n acc, dec_digits acc (string_of_N n) = Some (ev acc (N.to_uint n)).
Proof. intros n acc. rewrite string_of_N_empty by apply to_uint_nonnil. apply ev_string. Qed.

Lemma dec_nat_N : forall n, dec_nat (string_of_N n) = Some n.
Proof.
  intro n. pose proof (dec_digits_N n 0) as H. rewrite ev_uint, DecimalN.Unsigned.of_to in H.
  unfold dec_nat. destruct (string_of_N n) eqn:E; [|exact H].
  rewrite string_of_N_empty in E by apply to_uint_nonnil.
  pose proof (to_uint_nonnil n) as N. destruct (N.to_uint n); discriminate || congruence.
Qed.

(* A numeral starts with a digit. *)
Lemma string_of_N_head : forall n, exists a s, string_of_N n = String a s /\ between 48 57 (byte a) = true.
Proof.
  intro n. rewrite string_of_N_empty by apply to_uint_nonnil.
  pose proof (to_uint_nonnil n) as N.
  destruct (N.to_uint n); [congruence|..]; eexists _, _; (split; [reflexivity|reflexivity]).
Qed.

Lemma string_of_N_digits : forall n a, In a (list_ascii_of_string (string_of_N n)) ->
  between 48 57 (byte a) = true.
Proof.
  intro n. rewrite string_of_N_empty by apply to_uint_nonnil. generalize (N.to_uint n) as d.
  induction d as [|d IH|d IH|d IH|d IH|d IH|d IH|d IH|d IH|d IH|d IH]; intros a Ha;
    [destruct Ha|..]; (destruct Ha as [<-|Ha]; [reflexivity|apply IH, Ha]).
Qed.

Lemma dec_value_Z : forall z, dec_value (string_of_Z z) = Some z.
Proof.
  intro z. unfold string_of_Z. destruct (z <? 0)%Z eqn:E.
  - cbn [append dec_value]. change (Ascii.eqb "-" "-") with true. cbn iota. rewrite dec_nat_N.
    cbn. f_equal. lia.
  - cbn [append]. destruct (string_of_N_head (Z.abs_N z)) as (a & s & Es & Hd).
    unfold dec_value. rewrite Es. destruct (Ascii.eqb_spec a "-") as [->|_]; [discriminate|].
    rewrite <- Es, dec_nat_N. cbn. f_equal. lia.
Qed.

(* Hexadecimal *)
Lemma hex_value_digit : forall n, (n < 16)%N -> hex_value (hex_digit n) = Some n.
Proof.
  intros n H. unfold hex_value, hex_digit. fold (byte (chr (if (n <? 10)%N then 48 + n else 87 + n)%N)).
  rewrite byte_chr by (destruct (n <? 10)%N eqn:E; lia).
  destruct (n <? 10)%N eqn:E.
  - replace ((48 <=? 48 + n) && (48 + n <=? 57))%N with true by lia. f_equal. lia.
  - replace ((48 <=? 87 + n) && (87 + n <=? 57))%N with false by lia.
    replace ((97 <=? 87 + n) && (87 + n <=? 102))%N with true by lia. f_equal. lia.
Qed.

Lemma unhex_encode : forall s, unhex_bytes (hex_encode s) = Some s.
Proof.
  induction s as [|a s IH]; [reflexivity|]. cbn [hex_encode].
  change (hex_digits 2 (byte a)) with
    (String (hex_digit ((byte a / 16 ^ N.of_nat 1) mod 16))
      (String (hex_digit ((byte a / 16 ^ N.of_nat 0) mod 16)) "")).
  change (16 ^ N.of_nat 1)%N with 16%N. change (16 ^ N.of_nat 0)%N with 1%N. rewrite N.div_1_r.
  cbn [append unhex_bytes]. rewrite !hex_value_digit by lia. rewrite IH.
  f_equal. f_equal. rewrite <- (chr_byte a) at 3. unfold chr. f_equal. pose proof (byte_lt a). lia.
Qed.
