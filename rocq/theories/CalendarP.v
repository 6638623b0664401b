(* Proofs about the calendar: the model's closed formula counts days as the specification
   does, and the printed literal reads back. *)
From Coq Require Import Lia.
From Verif Require Import Format NumeralsP Calendar.
Open Scope Z_scope.

(* The calendar inside one cycle of 400 years: day of the cycle to year of the cycle,
   month and day. *)
Definition in_cycle (doe : Z) : Z * Z * Z :=
  let yoe := (doe - doe / 1460 + doe / 36524 - doe / 146096) / 365 in
  let doy := doe - (365 * yoe + yoe / 4 - yoe / 100) in
  let mp := (5 * doy + 2) / 153 in
  let day := doy - (153 * mp + 2) / 5 + 1 in
  let month := if mp <? 10 then mp + 3 else mp - 9 in
  (yoe + (if month <=? 2 then 1 else 0), month, day).

Definition shift (k : Z) (x : date) : date := let '(y, m, d) := x in (y + 400 * k, m, d).

Lemma civil_cycle : forall d,
  civil_of_days d = shift ((d + 719468) / 146097) (in_cycle ((d + 719468) mod 146097)).
Proof.
  intros d. unfold civil_of_days, in_cycle, shift.
  rewrite (Z.mod_eq (d + 719468) 146097) by lia.
  rewrite (Z.mul_comm 146097).
  set (doe := d + 719468 - (d + 719468) / 146097 * 146097).
  cbv zeta. f_equal. f_equal. lia.
Qed.

Lemma leap_shift : forall y k, leap (y + 400 * k) = leap y.
Proof.
  intros y k. unfold leap.
  replace (y + 400 * k) with (y + (100 * k) * 4) at 1 by lia. rewrite Z.mod_add by lia.
  replace (y + 400 * k) with (y + (4 * k) * 100) at 1 by lia. rewrite Z.mod_add by lia.
  replace (y + 400 * k) with (y + k * 400) by lia. rewrite Z.mod_add by lia. reflexivity.
Qed.

Lemma next_day_shift : forall x k, next_day (shift k x) = shift k (next_day x).
Proof.
  intros [[y m] d] k. unfold next_day, shift, days_in_month. rewrite leap_shift.
  destruct (d <? _); [reflexivity|]. destruct (m <? 12); [reflexivity|]. f_equal. f_equal. lia.
Qed.

Lemma is_date_shift : forall x k, is_date x -> is_date (shift k x).
Proof.
  intros [[y m] d] k. unfold is_date, shift, days_in_month. rewrite leap_shift. tauto.
Qed.

(* A statement on 0 .. n - 1, checked one by one. *)
Definition all_below (n : N) (P : Z -> bool) : bool :=
  snd (N.iter n (fun st => let '(z, ok) := st in (z + 1, ok && P z)) (0, true)).

Lemma all_below_ok : forall n P, all_below n P = true -> forall z, 0 <= z < Z.of_N n -> P z = true.
Proof.
  intros n P. unfold all_below.
  set (st := fun n => N.iter n (fun st => let '(z, ok) := st in (z + 1, ok && P z)) (0, true)).
  assert (G : fst (st n) = Z.of_N n
              /\ (snd (st n) = true -> forall z, 0 <= z < Z.of_N n -> P z = true)).
  { unfold st. induction n using N.peano_ind.
    - split; [reflexivity|]. cbn. intros _ z Hz. lia.
    - rewrite N.iter_succ.
      destruct (N.iter n _ (0, true)) as [z0 ok] eqn:E. cbn [fst snd] in *.
      destruct IHn as [H1 H2]. split; [rewrite H1; lia|].
      intros H z Hz. apply Bool.andb_true_iff in H. destruct H as [Ha Hb].
      destruct (Z.eq_dec z z0) as [->|Hn]; [assumption|]. apply H2; [assumption|]. lia. }
  apply G.
Qed.

(* Years of the cycle start on 1 March. *)
Definition raw (doe : Z) : Z := doe - doe / 1460 + doe / 36524 - doe / 146096.
Definition start (y : Z) : Z := 365 * y + y / 4 - y / 100.
Definition len (y : Z) : Z := if leap (y + 1) then 366 else 365.

Lemma raw_step : forall d, raw d <= raw (d + 1).
Proof.
  intros d. unfold raw. Z.div_mod_to_equations. lia.
Qed.

Lemma raw_mono : forall a b, a <= b -> raw a <= raw b.
Proof.
  intros a b H. replace b with (a + (b - a)) by lia.
  assert (G : forall k, 0 <= k -> raw a <= raw (a + k)).
  { intros k Hk. pattern k. apply natlike_ind; [rewrite Z.add_0_r; lia| |assumption].
    intros j Hj IH. replace (a + Z.succ j) with (a + j + 1) by lia.
    assert (R := raw_step (a + j)). lia. }
  apply G. lia.
Qed.

Lemma year_ends : forall y, 0 <= y < 400 ->
  raw (start y) / 365 = y /\ raw (start y + len y - 1) / 365 = y
  /\ (y < 399 -> start (y + 1) = start y + len y) /\ (y = 399 -> start y + len y = 146097).
Proof.
  assert (G : all_below 400 (fun y => (raw (start y) / 365 =? y)
    && (raw (start y + len y - 1) / 365 =? y)
    && (if y <? 399 then start (y + 1) =? start y + len y else start y + len y =? 146097)) = true)
    by (vm_compute; reflexivity).
  intros y Hy. assert (P := all_below_ok _ _ G y ltac:(lia)). cbv beta in P.
  rewrite !Bool.andb_true_iff, !Z.eqb_eq in P. destruct P as [[P1 P2] P3].
  split; [assumption|]. split; [assumption|].
  destruct (Z.ltb_spec y 399); apply Z.eqb_eq in P3; split; intros; lia.
Qed.

Lemma year_of : forall y doy, 0 <= y < 400 -> 0 <= doy < len y -> raw (start y + doy) / 365 = y.
Proof.
  intros y doy Hy Hd. destruct (year_ends y Hy) as (H1 & H2 & _).
  assert (A := raw_mono (start y) (start y + doy) ltac:(lia)).
  assert (B := raw_mono (start y + doy) (start y + len y - 1) ltac:(lia)).
  apply Z.le_antisymm.
  - rewrite <- H2 at 2. apply Z.div_le_mono; lia.
  - rewrite <- H1 at 1. apply Z.div_le_mono; lia.
Qed.

Lemma len_bounds : forall y, 365 <= len y <= 366.
Proof. intros y. unfold len. destruct (leap _); lia. Qed.

(* Every day of the cycle is a day of one of its years. *)
Lemma split_cycle : forall z, 0 <= z < 146097 ->
  exists y doy, 0 <= y < 400 /\ 0 <= doy < len y /\ z = start y + doy.
Proof.
  intros z Hz.
  assert (G : forall k, 0 <= k -> k < 400 -> 0 <= z < start k + len k ->
              exists y doy, 0 <= y < 400 /\ 0 <= doy < len y /\ z = start y + doy).
  { intros k Hk. pattern k. apply natlike_ind; [| |assumption].
    - intros _ H. exists 0, z. change (start 0) with 0 in *. lia.
    - intros j Hj IH H1 H2. unfold Z.succ in *.
      destruct (Z_lt_ge_dec z (start (j + 1))) as [Hlt|Hge].
      + apply IH; [lia|]. destruct (year_ends j ltac:(lia)) as (_ & _ & E & _). rewrite <- E by lia. lia.
      + exists (j + 1), (z - start (j + 1)). lia. }
  apply (G 399); [lia|lia|]. destruct (year_ends 399 ltac:(lia)) as (_ & _ & _ & E). rewrite E; lia.
Qed.

(* Inside a year: month and day from the day of the year. *)
Definition month_of (doy : Z) : Z :=
  let mp := (5 * doy + 2) / 153 in if mp <? 10 then mp + 3 else mp - 9.
Definition day_of (doy : Z) : Z := doy - (153 * ((5 * doy + 2) / 153) + 2) / 5 + 1.
Definition in_year (y doy : Z) : date :=
  (y + (if month_of doy <=? 2 then 1 else 0), month_of doy, day_of doy).

Lemma in_cycle_year : forall y doy, 0 <= y < 400 -> 0 <= doy < len y ->
  in_cycle (start y + doy) = in_year y doy.
Proof.
  intros y doy Hy Hd. unfold in_cycle. fold (raw (start y + doy)). rewrite year_of by assumption.
  fold (start y). cbv zeta. replace (start y + doy - start y) with doy by lia. reflexivity.
Qed.

Definition month_days (b : bool) (m : Z) : Z :=
  if m =? 2 then (if b then 29 else 28)
  else if (m =? 4) || (m =? 6) || (m =? 9) || (m =? 11) then 30 else 31.

Definition good_doy (b : bool) (doy : Z) : bool :=
  let m := month_of doy in let d := day_of doy in
  let m' := month_of (doy + 1) in let d' := day_of (doy + 1) in
  (1 <=? m) && (m <=? 12) && (1 <=? d) && (d <=? month_days b m)
  && (if doy + 1 <? (if b then 366 else 365)
      then if d <? month_days b m then (m' =? m) && (d' =? d + 1)
           else if m <? 12 then (m' =? m + 1) && (d' =? 1) && negb (m =? 2)
                else (m' =? 1) && (d' =? 1)
      else (m =? 2) && (d =? month_days b m)).

Lemma doys : forall (b : bool) doy, 0 <= doy < (if b then 366 else 365) -> good_doy b doy = true.
Proof.
  assert (G : all_below 366 (good_doy true) && all_below 365 (good_doy false) = true)
    by (vm_compute; reflexivity).
  apply Bool.andb_true_iff in G. destruct G as [G1 G2].
  intros [|] doy H; [apply (all_below_ok _ _ G1)|apply (all_below_ok _ _ G2)]; lia.
Qed.

Lemma month_days_year : forall y m,
  days_in_month (y + (if m <=? 2 then 1 else 0)) m = month_days (leap (y + 1)) m.
Proof.
  intros y m. unfold days_in_month, month_days. destruct (Z.eqb_spec m 2) as [->|Hm]; reflexivity.
Qed.

Lemma in_year_date : forall y doy, 0 <= doy < len y -> is_date (in_year y doy).
Proof.
  intros y doy H. assert (G := doys (leap (y + 1)) doy H). unfold good_doy in G.
  unfold is_date, in_year. rewrite month_days_year.
  rewrite !Bool.andb_true_iff, !Z.leb_le in G. lia.
Qed.

Lemma in_year_next : forall y doy, 0 <= doy < len y ->
  next_day (in_year y doy) = if doy + 1 <? len y then in_year y (doy + 1) else in_year (y + 1) 0.
Proof.
  intros y doy H. assert (G := doys (leap (y + 1)) doy H). unfold good_doy in G.
  unfold next_day, in_year at 1. rewrite month_days_year. fold (len y) in G.
  apply Bool.andb_true_iff in G. destruct G as [G0 G].
  rewrite !Bool.andb_true_iff, !Z.leb_le in G0.
  destruct (doy + 1 <? len y).
  - unfold in_year. destruct (day_of doy <? month_days (leap (y + 1)) (month_of doy)).
    + rewrite Bool.andb_true_iff, !Z.eqb_eq in G. destruct G as [-> ->]. reflexivity.
    + destruct (Z.ltb_spec (month_of doy) 12).
      * rewrite !Bool.andb_true_iff, !Z.eqb_eq, Bool.negb_true_iff, Z.eqb_neq in G.
        destruct G as [[-> ->] Hm].
        f_equal. f_equal.
        destruct (Z.leb_spec (month_of doy) 2); destruct (Z.leb_spec (month_of doy + 1) 2); lia.
      * rewrite Bool.andb_true_iff, !Z.eqb_eq in G. destruct G as [-> ->].
        replace (month_of doy) with 12 by lia. f_equal. f_equal. cbn. lia.
  - rewrite Bool.andb_true_iff, !Z.eqb_eq in G. destruct G as [-> ->].
    rewrite Z.ltb_irrefl. unfold in_year.
    change (month_of 0) with 3. change (day_of 0) with 1. cbn [Z.leb Z.compare].
    change (2 <? 12) with true. change (2 <=? 2) with true. cbn. rewrite Z.add_0_r. reflexivity.
Qed.

(* One whole cycle, day by day. *)
Definition good_day (z : Z) : Prop :=
  is_date (in_cycle z)
  /\ (if z <? 146096 then in_cycle (z + 1) = next_day (in_cycle z)
      else shift 1 (in_cycle 0) = next_day (in_cycle z)).

Lemma cycle_days : forall z, 0 <= z < 146097 -> good_day z.
Proof.
  intros z Hz. destruct (split_cycle z Hz) as (y & doy & Hy & Hd & ->).
  unfold good_day. rewrite in_cycle_year by assumption. split; [apply in_year_date; assumption|].
  rewrite in_year_next by assumption.
  assert (L := len_bounds y).
  destruct (year_ends y Hy) as (_ & _ & E1 & E2).
  destruct (Z.ltb_spec (doy + 1) (len y)) as [Hl|Hl].
  - destruct (Z.ltb_spec (start y + doy) 146096) as [Hc|Hc].
    + rewrite <- Z.add_assoc, in_cycle_year by lia. reflexivity.
    + exfalso. destruct (Z.eq_dec y 399) as [->|Hn]; [specialize (E2 eq_refl); lia|].
      specialize (E1 ltac:(lia)).
      assert (start (y + 1) < 146097); [|lia].
      clear - Hy. unfold start. Z.div_mod_to_equations. lia.
  - assert (doy = len y - 1) by lia. subst doy.
    destruct (Z.eq_dec y 399) as [->|Hn].
    + specialize (E2 eq_refl). destruct (Z.ltb_spec (start 399 + (len 399 - 1)) 146096); [lia|].
      vm_compute. reflexivity.
    + specialize (E1 ltac:(lia)).
      destruct (Z.ltb_spec (start y + (len y - 1)) 146096) as [Hc|Hc].
      * replace (start y + (len y - 1) + 1) with (start (y + 1) + 0) by lia.
        apply in_cycle_year; [lia|]. assert (L' := len_bounds (y + 1)). lia.
      * exfalso. assert (start (y + 1) < 146097); [|lia].
        clear - Hy Hn. unfold start. Z.div_mod_to_equations. lia.
Qed.

Lemma civil_is_date : forall d, is_date (civil_of_days d).
Proof.
  intros d. rewrite civil_cycle. apply is_date_shift.
  assert (H := Z.mod_pos_bound (d + 719468) 146097 ltac:(lia)).
  exact (proj1 (cycle_days _ H)).
Qed.

Lemma civil_next : forall d, civil_of_days (d + 1) = next_day (civil_of_days d).
Proof.
  intros d. rewrite !civil_cycle, next_day_shift.
  set (z := d + 719468). replace (d + 1 + 719468) with (z + 1) by lia.
  assert (Hr := Z.mod_pos_bound z 146097 ltac:(lia)).
  assert (G := cycle_days _ Hr). destruct G as [_ G].
  assert (Hz := Z.div_mod z 146097 ltac:(lia)).
  destruct (Z.ltb_spec (z mod 146097) 146096) as [Hl|Hl].
  - rewrite <- G.
    assert (E1 : (z + 1) / 146097 = z / 146097)
      by (symmetry; apply Z.div_unique with (z mod 146097 + 1); lia).
    assert (E2 : (z + 1) mod 146097 = z mod 146097 + 1)
      by (symmetry; apply Z.mod_unique with (z / 146097); lia).
    rewrite E1, E2. reflexivity.
  - rewrite <- G.
    assert (E1 : (z + 1) / 146097 = z / 146097 + 1)
      by (symmetry; apply Z.div_unique with 0; lia).
    assert (E2 : (z + 1) mod 146097 = 0)
      by (symmetry; apply Z.mod_unique with (z / 146097 + 1); lia).
    rewrite E1, E2. destruct (in_cycle 0) as [[y m] dd]. unfold shift. f_equal. f_equal. lia.
Qed.

(* next_day is injective on dates, and goes forward. *)
Lemma next_day_inj : forall x y, is_date x -> is_date y -> next_day x = next_day y -> x = y.
Proof.
  intros [[y m] d] [[y' m'] d']. unfold is_date, next_day. intros H H' E.
  assert (E1 := f_equal (fun x => fst (fst x)) E).
  assert (E2 := f_equal (fun x => snd (fst x)) E).
  assert (E3 := f_equal snd E). clear E.
  destruct (Z.ltb_spec d (days_in_month y m)); destruct (Z.ltb_spec d' (days_in_month y' m'));
    destruct (Z.ltb_spec m 12); destruct (Z.ltb_spec m' 12); cbn [fst snd] in E1, E2, E3; try lia;
    (assert (y = y') by lia; assert (m = m') by lia; subst y' m'; assert (d = d') by lia;
     subst d'; reflexivity).
Qed.

Lemma on_day_civil : forall n x, on_day n x <-> x = civil_of_days n.
Proof.
  assert (H1 : forall n x, on_day n x -> x = civil_of_days n).
  { intros n x H. induction H as [|n x H IH|n x Hd H IH].
    - vm_compute. reflexivity.
    - rewrite civil_next, <- IH. reflexivity.
    - rewrite civil_next in IH. apply next_day_inj; auto using civil_is_date. }
  intros n x. split; [apply H1|]. intros ->.
  destruct (Z_le_gt_dec 0 n) as [Hn|Hn].
  - pattern n. apply natlike_ind; [exact on_epoch| |assumption].
    intros k _ IH. unfold Z.succ. rewrite civil_next. constructor. assumption.
  - assert (G : forall k, 0 <= k -> on_day (- k) (civil_of_days (- k))).
    { intros k Hk. pattern k. apply natlike_ind; [exact on_epoch| |assumption].
      intros j Hj IH. apply on_before; [apply civil_is_date|].
      rewrite <- civil_next. replace (- Z.succ j + 1) with (- j) by lia. assumption. }
    specialize (G (- n) ltac:(lia)). rewrite Z.opp_involutive in G. assumption.
Qed.

(* Order on dates. *)
Definition before (x y : date) : Prop :=
  let '(a, b, c) := x in let '(a', b', c') := y in
  a < a' \/ a = a' /\ (b < b' \/ b = b' /\ c < c').

Lemma before_trans : forall x y z, before x y -> before y z -> before x z.
Proof. intros [[a b] c] [[a' b'] c'] [[a2 b2] c2]. unfold before. lia. Qed.
Lemma before_irrefl : forall x, ~ before x x.
Proof. intros [[a b] c]. unfold before. lia. Qed.
Lemma next_day_before : forall x, before x (next_day x).
Proof.
  intros [[y m] d]. unfold next_day.
  destruct (d <? _); [unfold before; lia|]. destruct (m <? 12) eqn:E; unfold before; lia.
Qed.

Lemma civil_mono : forall a b, a < b -> before (civil_of_days a) (civil_of_days b).
Proof.
  intros a b H. assert (G : forall k, 0 <= k -> before (civil_of_days a) (civil_of_days (a + 1 + k))).
  { intros k Hk. pattern k. apply natlike_ind; [| |assumption].
    - rewrite Z.add_0_r, civil_next. apply next_day_before.
    - intros j Hj IH. replace (a + 1 + Z.succ j) with (a + 1 + j + 1) by lia. rewrite civil_next.
      eapply before_trans; [exact IH|apply next_day_before]. }
  specialize (G (b - a - 1) ltac:(lia)). replace (a + 1 + (b - a - 1)) with b in G by lia. assumption.
Qed.

Lemma civil_inj : forall a b, civil_of_days a = civil_of_days b -> a = b.
Proof.
  intros a b E. destruct (Z_lt_ge_dec a b) as [H|H].
  - exfalso. apply civil_mono in H. rewrite E in H. exact (before_irrefl _ H).
  - destruct (Z_lt_ge_dec b a) as [H'|H']; [|lia].
    exfalso. apply civil_mono in H'. rewrite E in H'. exact (before_irrefl _ H').
Qed.

Lemma denotes_unique : forall x a b, denotes x a -> denotes x b -> a = b.
Proof.
  intros x a b (n & H1 & _ & _ & _ & _ & _ & ->) (m & H2 & _ & _ & _ & _ & _ & ->).
  apply on_day_civil in H1. apply on_day_civil in H2. rewrite H1 in H2. apply civil_inj in H2.
  subst. reflexivity.
Qed.
